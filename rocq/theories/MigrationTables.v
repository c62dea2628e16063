(** * MigrationTables: the slot tables written out in utg/migrations/*.py.
    GENERATED from the text of these files by tools/gen_migrations.py; do not edit.  The order of the
    entries is the order of the dict literals. *)
From Verif Require Import PyBase Relations Restrictions Logic.

(** Evaluation of a dict display: a repeated key keeps its first position and gets its last value. *)
Definition dict_literal (l : list (key * nat)) : dict key nat :=
  fold_left (fun d kv => dset key_eqb (fst kv) (snd kv) d) l [].

(** utg/migrations/m_0001_include_short_forms_in_full.py:45 *)
Definition m1_OLD_ADJECTIVE_CACHE : dict key nat := dict_literal [
  ([Some NUMBER_PLURAL; Some CASE_INSTRUMENTAL; None; Some ANIMALITY_ANIMATE; Some GRADE_POSITIVE], 132);
  ([Some NUMBER_SINGULAR; Some CASE_NOMINATIVE; Some GENDER_FEMININE; Some ANIMALITY_INANIMATE; Some GRADE_COMPARATIVE], 16);
  ([Some NUMBER_SINGULAR; Some CASE_DATIVE; Some GENDER_MASCULINE; Some ANIMALITY_INANIMATE; Some GRADE_SUPERLATIVE], 41);
  ([Some NUMBER_SINGULAR; Some CASE_DATIVE; Some GENDER_MASCULINE; Some ANIMALITY_ANIMATE; Some GRADE_COMPARATIVE], 37);
  ([Some NUMBER_SINGULAR; Some CASE_GENITIVE; Some GENDER_FEMININE; Some ANIMALITY_INANIMATE; Some GRADE_POSITIVE], 33);
  ([Some NUMBER_SINGULAR; Some CASE_INSTRUMENTAL; Some GENDER_MASCULINE; Some ANIMALITY_ANIMATE; Some GRADE_COMPARATIVE], 73);
  ([Some NUMBER_PLURAL; Some CASE_GENITIVE; None; Some ANIMALITY_ANIMATE; Some GRADE_POSITIVE], 114);
  ([Some NUMBER_SINGULAR; Some CASE_DATIVE; Some GENDER_MASCULINE; Some ANIMALITY_INANIMATE; Some GRADE_COMPARATIVE], 40);
  ([Some NUMBER_SINGULAR; Some CASE_GENITIVE; Some GENDER_NEUTER; Some ANIMALITY_INANIMATE; Some GRADE_POSITIVE], 27);
  ([Some NUMBER_PLURAL; Some CASE_NOMINATIVE; None; Some ANIMALITY_INANIMATE; Some GRADE_SUPERLATIVE], 113);
  ([Some NUMBER_PLURAL; Some CASE_ACCUSATIVE; None; Some ANIMALITY_ANIMATE; Some GRADE_COMPARATIVE], 127);
  ([Some NUMBER_SINGULAR; Some CASE_GENITIVE; Some GENDER_NEUTER; Some ANIMALITY_INANIMATE; Some GRADE_COMPARATIVE], 28);
  ([Some NUMBER_PLURAL; Some CASE_PREPOSITIONAL; None; Some ANIMALITY_INANIMATE; Some GRADE_POSITIVE], 141);
  ([Some NUMBER_SINGULAR; Some CASE_DATIVE; Some GENDER_FEMININE; Some ANIMALITY_ANIMATE; Some GRADE_SUPERLATIVE], 50);
  ([Some NUMBER_SINGULAR; Some CASE_INSTRUMENTAL; Some GENDER_NEUTER; Some ANIMALITY_ANIMATE; Some GRADE_COMPARATIVE], 79);
  ([Some NUMBER_SINGULAR; Some CASE_GENITIVE; Some GENDER_MASCULINE; Some ANIMALITY_INANIMATE; Some GRADE_COMPARATIVE], 22);
  ([Some NUMBER_SINGULAR; Some CASE_NOMINATIVE; Some GENDER_NEUTER; Some ANIMALITY_INANIMATE; Some GRADE_SUPERLATIVE], 11);
  ([Some NUMBER_SINGULAR; Some CASE_INSTRUMENTAL; Some GENDER_FEMININE; Some ANIMALITY_INANIMATE; Some GRADE_POSITIVE], 87);
  ([Some NUMBER_PLURAL; Some CASE_NOMINATIVE; None; Some ANIMALITY_ANIMATE; Some GRADE_SUPERLATIVE], 110);
  ([Some NUMBER_SINGULAR; Some CASE_DATIVE; Some GENDER_NEUTER; Some ANIMALITY_ANIMATE; Some GRADE_COMPARATIVE], 43);
  ([Some NUMBER_SINGULAR; Some CASE_DATIVE; Some GENDER_NEUTER; Some ANIMALITY_ANIMATE; Some GRADE_SUPERLATIVE], 44);
  ([Some NUMBER_SINGULAR; Some CASE_GENITIVE; Some GENDER_NEUTER; Some ANIMALITY_ANIMATE; Some GRADE_SUPERLATIVE], 26);
  ([Some NUMBER_PLURAL; Some CASE_INSTRUMENTAL; None; Some ANIMALITY_ANIMATE; Some GRADE_SUPERLATIVE], 134);
  ([Some NUMBER_SINGULAR; Some CASE_PREPOSITIONAL; Some GENDER_MASCULINE; Some ANIMALITY_INANIMATE; Some GRADE_POSITIVE], 93);
  ([Some NUMBER_SINGULAR; Some CASE_GENITIVE; Some GENDER_FEMININE; Some ANIMALITY_INANIMATE; Some GRADE_SUPERLATIVE], 35);
  ([Some NUMBER_PLURAL; Some CASE_DATIVE; None; Some ANIMALITY_INANIMATE; Some GRADE_SUPERLATIVE], 125);
  ([Some NUMBER_PLURAL; Some CASE_NOMINATIVE; None; Some ANIMALITY_INANIMATE; Some GRADE_POSITIVE], 111);
  ([Some NUMBER_SINGULAR; Some CASE_NOMINATIVE; Some GENDER_FEMININE; Some ANIMALITY_INANIMATE; Some GRADE_SUPERLATIVE], 17);
  ([Some NUMBER_PLURAL; Some CASE_PREPOSITIONAL; None; Some ANIMALITY_ANIMATE; Some GRADE_COMPARATIVE], 139);
  ([Some NUMBER_SINGULAR; Some CASE_INSTRUMENTAL; Some GENDER_MASCULINE; Some ANIMALITY_INANIMATE; Some GRADE_POSITIVE], 75);
  ([Some NUMBER_SINGULAR; Some CASE_DATIVE; Some GENDER_FEMININE; Some ANIMALITY_ANIMATE; Some GRADE_POSITIVE], 48);
  ([Some NUMBER_SINGULAR; Some CASE_GENITIVE; Some GENDER_FEMININE; Some ANIMALITY_ANIMATE; Some GRADE_POSITIVE], 30);
  ([Some NUMBER_SINGULAR; Some CASE_NOMINATIVE; Some GENDER_FEMININE; Some ANIMALITY_ANIMATE; Some GRADE_POSITIVE], 12);
  ([Some NUMBER_SINGULAR; Some CASE_PREPOSITIONAL; Some GENDER_FEMININE; Some ANIMALITY_INANIMATE; Some GRADE_COMPARATIVE], 106);
  ([Some NUMBER_SINGULAR; Some CASE_INSTRUMENTAL; Some GENDER_FEMININE; Some ANIMALITY_INANIMATE; Some GRADE_SUPERLATIVE], 89);
  ([Some NUMBER_SINGULAR; Some CASE_ACCUSATIVE; Some GENDER_FEMININE; Some ANIMALITY_ANIMATE; Some GRADE_POSITIVE], 66);
  ([Some NUMBER_SINGULAR; Some CASE_ACCUSATIVE; Some GENDER_MASCULINE; Some ANIMALITY_INANIMATE; Some GRADE_SUPERLATIVE], 59);
  ([Some NUMBER_SINGULAR; Some CASE_PREPOSITIONAL; Some GENDER_FEMININE; Some ANIMALITY_ANIMATE; Some GRADE_POSITIVE], 102);
  ([Some NUMBER_SINGULAR; Some CASE_NOMINATIVE; Some GENDER_FEMININE; Some ANIMALITY_ANIMATE; Some GRADE_COMPARATIVE], 13);
  ([Some NUMBER_SINGULAR; Some CASE_PREPOSITIONAL; Some GENDER_MASCULINE; Some ANIMALITY_ANIMATE; Some GRADE_SUPERLATIVE], 92);
  ([Some NUMBER_SINGULAR; Some CASE_NOMINATIVE; Some GENDER_MASCULINE; Some ANIMALITY_ANIMATE; Some GRADE_SUPERLATIVE], 2);
  ([Some NUMBER_SINGULAR; Some CASE_NOMINATIVE; Some GENDER_MASCULINE; Some ANIMALITY_ANIMATE; Some GRADE_COMPARATIVE], 1);
  ([Some NUMBER_SINGULAR; Some CASE_ACCUSATIVE; Some GENDER_MASCULINE; Some ANIMALITY_INANIMATE; Some GRADE_COMPARATIVE], 58);
  ([Some NUMBER_SINGULAR; Some CASE_PREPOSITIONAL; Some GENDER_FEMININE; Some ANIMALITY_ANIMATE; Some GRADE_SUPERLATIVE], 104);
  ([Some NUMBER_SINGULAR; Some CASE_INSTRUMENTAL; Some GENDER_MASCULINE; Some ANIMALITY_INANIMATE; Some GRADE_SUPERLATIVE], 77);
  ([Some NUMBER_PLURAL; Some CASE_DATIVE; None; Some ANIMALITY_INANIMATE; Some GRADE_POSITIVE], 123);
  ([Some NUMBER_PLURAL; Some CASE_INSTRUMENTAL; None; Some ANIMALITY_INANIMATE; Some GRADE_POSITIVE], 135);
  ([Some NUMBER_SINGULAR; Some CASE_PREPOSITIONAL; Some GENDER_MASCULINE; Some ANIMALITY_INANIMATE; Some GRADE_SUPERLATIVE], 95);
  ([Some NUMBER_PLURAL; Some CASE_ACCUSATIVE; None; Some ANIMALITY_INANIMATE; Some GRADE_POSITIVE], 129);
  ([Some NUMBER_SINGULAR; Some CASE_ACCUSATIVE; Some GENDER_NEUTER; Some ANIMALITY_INANIMATE; Some GRADE_POSITIVE], 63);
  ([Some NUMBER_SINGULAR; Some CASE_PREPOSITIONAL; Some GENDER_MASCULINE; Some ANIMALITY_ANIMATE; Some GRADE_POSITIVE], 90);
  ([Some NUMBER_SINGULAR; Some CASE_PREPOSITIONAL; Some GENDER_FEMININE; Some ANIMALITY_INANIMATE; Some GRADE_SUPERLATIVE], 107);
  ([Some NUMBER_SINGULAR; Some CASE_ACCUSATIVE; Some GENDER_NEUTER; Some ANIMALITY_ANIMATE; Some GRADE_SUPERLATIVE], 62);
  ([Some NUMBER_SINGULAR; Some CASE_ACCUSATIVE; Some GENDER_NEUTER; Some ANIMALITY_ANIMATE; Some GRADE_COMPARATIVE], 61);
  ([Some NUMBER_SINGULAR; Some CASE_GENITIVE; Some GENDER_MASCULINE; Some ANIMALITY_ANIMATE; Some GRADE_POSITIVE], 18);
  ([Some NUMBER_SINGULAR; Some CASE_PREPOSITIONAL; Some GENDER_NEUTER; Some ANIMALITY_ANIMATE; Some GRADE_COMPARATIVE], 97);
  ([Some NUMBER_SINGULAR; Some CASE_INSTRUMENTAL; Some GENDER_FEMININE; Some ANIMALITY_ANIMATE; Some GRADE_COMPARATIVE], 85);
  ([Some NUMBER_SINGULAR; Some CASE_DATIVE; Some GENDER_FEMININE; Some ANIMALITY_INANIMATE; Some GRADE_COMPARATIVE], 52);
  ([Some NUMBER_SINGULAR; Some CASE_ACCUSATIVE; Some GENDER_FEMININE; Some ANIMALITY_ANIMATE; Some GRADE_SUPERLATIVE], 68);
  ([Some NUMBER_SINGULAR; Some CASE_NOMINATIVE; Some GENDER_NEUTER; Some ANIMALITY_ANIMATE; Some GRADE_COMPARATIVE], 7);
  ([Some NUMBER_PLURAL; Some CASE_INSTRUMENTAL; None; Some ANIMALITY_ANIMATE; Some GRADE_COMPARATIVE], 133);
  ([Some NUMBER_SINGULAR; Some CASE_ACCUSATIVE; Some GENDER_NEUTER; Some ANIMALITY_INANIMATE; Some GRADE_COMPARATIVE], 64);
  ([Some NUMBER_SINGULAR; Some CASE_ACCUSATIVE; Some GENDER_FEMININE; Some ANIMALITY_INANIMATE; Some GRADE_SUPERLATIVE], 71);
  ([Some NUMBER_SINGULAR; Some CASE_ACCUSATIVE; Some GENDER_NEUTER; Some ANIMALITY_INANIMATE; Some GRADE_SUPERLATIVE], 65);
  ([Some NUMBER_SINGULAR; Some CASE_INSTRUMENTAL; Some GENDER_NEUTER; Some ANIMALITY_INANIMATE; Some GRADE_SUPERLATIVE], 83);
  ([Some NUMBER_SINGULAR; Some CASE_GENITIVE; Some GENDER_FEMININE; Some ANIMALITY_INANIMATE; Some GRADE_COMPARATIVE], 34);
  ([Some NUMBER_SINGULAR; Some CASE_PREPOSITIONAL; Some GENDER_FEMININE; Some ANIMALITY_ANIMATE; Some GRADE_COMPARATIVE], 103);
  ([Some NUMBER_PLURAL; Some CASE_GENITIVE; None; Some ANIMALITY_ANIMATE; Some GRADE_SUPERLATIVE], 116);
  ([Some NUMBER_SINGULAR; Some CASE_INSTRUMENTAL; Some GENDER_MASCULINE; Some ANIMALITY_ANIMATE; Some GRADE_SUPERLATIVE], 74);
  ([Some NUMBER_SINGULAR; Some CASE_DATIVE; Some GENDER_MASCULINE; Some ANIMALITY_INANIMATE; Some GRADE_POSITIVE], 39);
  ([Some NUMBER_SINGULAR; Some CASE_GENITIVE; Some GENDER_MASCULINE; Some ANIMALITY_ANIMATE; Some GRADE_COMPARATIVE], 19);
  ([Some NUMBER_SINGULAR; Some CASE_ACCUSATIVE; Some GENDER_MASCULINE; Some ANIMALITY_ANIMATE; Some GRADE_COMPARATIVE], 55);
  ([Some NUMBER_SINGULAR; Some CASE_PREPOSITIONAL; Some GENDER_NEUTER; Some ANIMALITY_INANIMATE; Some GRADE_POSITIVE], 99);
  ([Some NUMBER_PLURAL; Some CASE_ACCUSATIVE; None; Some ANIMALITY_ANIMATE; Some GRADE_POSITIVE], 126);
  ([Some NUMBER_SINGULAR; Some CASE_NOMINATIVE; Some GENDER_MASCULINE; Some ANIMALITY_INANIMATE; Some GRADE_COMPARATIVE], 4);
  ([Some NUMBER_SINGULAR; Some CASE_NOMINATIVE; Some GENDER_MASCULINE; Some ANIMALITY_INANIMATE; Some GRADE_SUPERLATIVE], 5);
  ([Some NUMBER_SINGULAR; Some CASE_DATIVE; Some GENDER_NEUTER; Some ANIMALITY_INANIMATE; Some GRADE_POSITIVE], 45);
  ([Some NUMBER_SINGULAR; Some CASE_PREPOSITIONAL; Some GENDER_NEUTER; Some ANIMALITY_ANIMATE; Some GRADE_SUPERLATIVE], 98);
  ([Some NUMBER_SINGULAR; Some CASE_GENITIVE; Some GENDER_MASCULINE; Some ANIMALITY_INANIMATE; Some GRADE_SUPERLATIVE], 23);
  ([Some NUMBER_SINGULAR; Some CASE_INSTRUMENTAL; Some GENDER_FEMININE; Some ANIMALITY_INANIMATE; Some GRADE_COMPARATIVE], 88);
  ([Some NUMBER_PLURAL; Some CASE_NOMINATIVE; None; Some ANIMALITY_ANIMATE; Some GRADE_POSITIVE], 108);
  ([Some NUMBER_SINGULAR; Some CASE_GENITIVE; Some GENDER_MASCULINE; Some ANIMALITY_ANIMATE; Some GRADE_SUPERLATIVE], 20);
  ([Some NUMBER_SINGULAR; Some CASE_ACCUSATIVE; Some GENDER_FEMININE; Some ANIMALITY_INANIMATE; Some GRADE_POSITIVE], 69);
  ([Some NUMBER_PLURAL; Some CASE_DATIVE; None; Some ANIMALITY_ANIMATE; Some GRADE_POSITIVE], 120);
  ([Some NUMBER_SINGULAR; Some CASE_DATIVE; Some GENDER_NEUTER; Some ANIMALITY_ANIMATE; Some GRADE_POSITIVE], 42);
  ([Some NUMBER_PLURAL; Some CASE_PREPOSITIONAL; None; Some ANIMALITY_INANIMATE; Some GRADE_SUPERLATIVE], 143);
  ([Some NUMBER_SINGULAR; Some CASE_GENITIVE; Some GENDER_NEUTER; Some ANIMALITY_ANIMATE; Some GRADE_POSITIVE], 24);
  ([Some NUMBER_PLURAL; Some CASE_GENITIVE; None; Some ANIMALITY_INANIMATE; Some GRADE_POSITIVE], 117);
  ([Some NUMBER_SINGULAR; Some CASE_NOMINATIVE; Some GENDER_MASCULINE; Some ANIMALITY_INANIMATE; Some GRADE_POSITIVE], 3);
  ([Some NUMBER_SINGULAR; Some CASE_DATIVE; Some GENDER_MASCULINE; Some ANIMALITY_ANIMATE; Some GRADE_POSITIVE], 36);
  ([Some NUMBER_SINGULAR; Some CASE_INSTRUMENTAL; Some GENDER_MASCULINE; Some ANIMALITY_ANIMATE; Some GRADE_POSITIVE], 72);
  ([Some NUMBER_PLURAL; Some CASE_GENITIVE; None; Some ANIMALITY_ANIMATE; Some GRADE_COMPARATIVE], 115);
  ([Some NUMBER_SINGULAR; Some CASE_PREPOSITIONAL; Some GENDER_MASCULINE; Some ANIMALITY_ANIMATE; Some GRADE_COMPARATIVE], 91);
  ([Some NUMBER_PLURAL; Some CASE_DATIVE; None; Some ANIMALITY_INANIMATE; Some GRADE_COMPARATIVE], 124);
  ([Some NUMBER_SINGULAR; Some CASE_PREPOSITIONAL; Some GENDER_FEMININE; Some ANIMALITY_INANIMATE; Some GRADE_POSITIVE], 105);
  ([Some NUMBER_PLURAL; Some CASE_ACCUSATIVE; None; Some ANIMALITY_ANIMATE; Some GRADE_SUPERLATIVE], 128);
  ([Some NUMBER_SINGULAR; Some CASE_PREPOSITIONAL; Some GENDER_NEUTER; Some ANIMALITY_INANIMATE; Some GRADE_SUPERLATIVE], 101);
  ([Some NUMBER_SINGULAR; Some CASE_GENITIVE; Some GENDER_FEMININE; Some ANIMALITY_ANIMATE; Some GRADE_COMPARATIVE], 31);
  ([Some NUMBER_SINGULAR; Some CASE_NOMINATIVE; Some GENDER_NEUTER; Some ANIMALITY_INANIMATE; Some GRADE_COMPARATIVE], 10);
  ([Some NUMBER_PLURAL; Some CASE_PREPOSITIONAL; None; Some ANIMALITY_INANIMATE; Some GRADE_COMPARATIVE], 142);
  ([Some NUMBER_SINGULAR; Some CASE_GENITIVE; Some GENDER_MASCULINE; Some ANIMALITY_INANIMATE; Some GRADE_POSITIVE], 21);
  ([Some NUMBER_SINGULAR; Some CASE_INSTRUMENTAL; Some GENDER_NEUTER; Some ANIMALITY_ANIMATE; Some GRADE_POSITIVE], 78);
  ([Some NUMBER_PLURAL; Some CASE_GENITIVE; None; Some ANIMALITY_INANIMATE; Some GRADE_SUPERLATIVE], 119);
  ([Some NUMBER_SINGULAR; Some CASE_NOMINATIVE; Some GENDER_NEUTER; Some ANIMALITY_ANIMATE; Some GRADE_SUPERLATIVE], 8);
  ([Some NUMBER_SINGULAR; Some CASE_NOMINATIVE; Some GENDER_FEMININE; Some ANIMALITY_ANIMATE; Some GRADE_SUPERLATIVE], 14);
  ([Some NUMBER_SINGULAR; Some CASE_NOMINATIVE; Some GENDER_FEMININE; Some ANIMALITY_INANIMATE; Some GRADE_POSITIVE], 15);
  ([Some NUMBER_SINGULAR; Some CASE_DATIVE; Some GENDER_MASCULINE; Some ANIMALITY_ANIMATE; Some GRADE_SUPERLATIVE], 38);
  ([Some NUMBER_SINGULAR; Some CASE_INSTRUMENTAL; Some GENDER_FEMININE; Some ANIMALITY_ANIMATE; Some GRADE_SUPERLATIVE], 86);
  ([Some NUMBER_PLURAL; Some CASE_NOMINATIVE; None; Some ANIMALITY_INANIMATE; Some GRADE_COMPARATIVE], 112);
  ([Some NUMBER_SINGULAR; Some CASE_ACCUSATIVE; Some GENDER_MASCULINE; Some ANIMALITY_ANIMATE; Some GRADE_SUPERLATIVE], 56);
  ([Some NUMBER_PLURAL; Some CASE_INSTRUMENTAL; None; Some ANIMALITY_INANIMATE; Some GRADE_SUPERLATIVE], 137);
  ([Some NUMBER_SINGULAR; Some CASE_INSTRUMENTAL; Some GENDER_MASCULINE; Some ANIMALITY_INANIMATE; Some GRADE_COMPARATIVE], 76);
  ([Some NUMBER_PLURAL; Some CASE_ACCUSATIVE; None; Some ANIMALITY_INANIMATE; Some GRADE_SUPERLATIVE], 131);
  ([Some NUMBER_PLURAL; Some CASE_ACCUSATIVE; None; Some ANIMALITY_INANIMATE; Some GRADE_COMPARATIVE], 130);
  ([Some NUMBER_SINGULAR; Some CASE_NOMINATIVE; Some GENDER_NEUTER; Some ANIMALITY_INANIMATE; Some GRADE_POSITIVE], 9);
  ([Some NUMBER_PLURAL; Some CASE_PREPOSITIONAL; None; Some ANIMALITY_ANIMATE; Some GRADE_POSITIVE], 138);
  ([Some NUMBER_SINGULAR; Some CASE_INSTRUMENTAL; Some GENDER_NEUTER; Some ANIMALITY_INANIMATE; Some GRADE_COMPARATIVE], 82);
  ([Some NUMBER_SINGULAR; Some CASE_DATIVE; Some GENDER_FEMININE; Some ANIMALITY_INANIMATE; Some GRADE_POSITIVE], 51);
  ([Some NUMBER_SINGULAR; Some CASE_ACCUSATIVE; Some GENDER_FEMININE; Some ANIMALITY_ANIMATE; Some GRADE_COMPARATIVE], 67);
  ([Some NUMBER_SINGULAR; Some CASE_NOMINATIVE; Some GENDER_NEUTER; Some ANIMALITY_ANIMATE; Some GRADE_POSITIVE], 6);
  ([Some NUMBER_SINGULAR; Some CASE_PREPOSITIONAL; Some GENDER_NEUTER; Some ANIMALITY_ANIMATE; Some GRADE_POSITIVE], 96);
  ([Some NUMBER_SINGULAR; Some CASE_ACCUSATIVE; Some GENDER_FEMININE; Some ANIMALITY_INANIMATE; Some GRADE_COMPARATIVE], 70);
  ([Some NUMBER_SINGULAR; Some CASE_INSTRUMENTAL; Some GENDER_NEUTER; Some ANIMALITY_ANIMATE; Some GRADE_SUPERLATIVE], 80);
  ([Some NUMBER_SINGULAR; Some CASE_INSTRUMENTAL; Some GENDER_NEUTER; Some ANIMALITY_INANIMATE; Some GRADE_POSITIVE], 81);
  ([Some NUMBER_SINGULAR; Some CASE_PREPOSITIONAL; Some GENDER_MASCULINE; Some ANIMALITY_INANIMATE; Some GRADE_COMPARATIVE], 94);
  ([Some NUMBER_SINGULAR; Some CASE_NOMINATIVE; Some GENDER_MASCULINE; Some ANIMALITY_ANIMATE; Some GRADE_POSITIVE], 0);
  ([Some NUMBER_SINGULAR; Some CASE_GENITIVE; Some GENDER_FEMININE; Some ANIMALITY_ANIMATE; Some GRADE_SUPERLATIVE], 32);
  ([Some NUMBER_SINGULAR; Some CASE_ACCUSATIVE; Some GENDER_MASCULINE; Some ANIMALITY_INANIMATE; Some GRADE_POSITIVE], 57);
  ([Some NUMBER_SINGULAR; Some CASE_ACCUSATIVE; Some GENDER_MASCULINE; Some ANIMALITY_ANIMATE; Some GRADE_POSITIVE], 54);
  ([Some NUMBER_PLURAL; Some CASE_INSTRUMENTAL; None; Some ANIMALITY_INANIMATE; Some GRADE_COMPARATIVE], 136);
  ([Some NUMBER_SINGULAR; Some CASE_GENITIVE; Some GENDER_NEUTER; Some ANIMALITY_INANIMATE; Some GRADE_SUPERLATIVE], 29);
  ([Some NUMBER_SINGULAR; Some CASE_DATIVE; Some GENDER_NEUTER; Some ANIMALITY_INANIMATE; Some GRADE_SUPERLATIVE], 47);
  ([Some NUMBER_SINGULAR; Some CASE_DATIVE; Some GENDER_NEUTER; Some ANIMALITY_INANIMATE; Some GRADE_COMPARATIVE], 46);
  ([Some NUMBER_SINGULAR; Some CASE_ACCUSATIVE; Some GENDER_NEUTER; Some ANIMALITY_ANIMATE; Some GRADE_POSITIVE], 60);
  ([Some NUMBER_PLURAL; Some CASE_NOMINATIVE; None; Some ANIMALITY_ANIMATE; Some GRADE_COMPARATIVE], 109);
  ([Some NUMBER_SINGULAR; Some CASE_INSTRUMENTAL; Some GENDER_FEMININE; Some ANIMALITY_ANIMATE; Some GRADE_POSITIVE], 84);
  ([Some NUMBER_PLURAL; Some CASE_DATIVE; None; Some ANIMALITY_ANIMATE; Some GRADE_SUPERLATIVE], 122);
  ([Some NUMBER_SINGULAR; Some CASE_DATIVE; Some GENDER_FEMININE; Some ANIMALITY_INANIMATE; Some GRADE_SUPERLATIVE], 53);
  ([Some NUMBER_PLURAL; Some CASE_PREPOSITIONAL; None; Some ANIMALITY_ANIMATE; Some GRADE_SUPERLATIVE], 140);
  ([Some NUMBER_PLURAL; Some CASE_DATIVE; None; Some ANIMALITY_ANIMATE; Some GRADE_COMPARATIVE], 121);
  ([Some NUMBER_SINGULAR; Some CASE_PREPOSITIONAL; Some GENDER_NEUTER; Some ANIMALITY_INANIMATE; Some GRADE_COMPARATIVE], 100);
  ([Some NUMBER_SINGULAR; Some CASE_DATIVE; Some GENDER_FEMININE; Some ANIMALITY_ANIMATE; Some GRADE_COMPARATIVE], 49);
  ([Some NUMBER_SINGULAR; Some CASE_GENITIVE; Some GENDER_NEUTER; Some ANIMALITY_ANIMATE; Some GRADE_COMPARATIVE], 25);
  ([Some NUMBER_PLURAL; Some CASE_GENITIVE; None; Some ANIMALITY_INANIMATE; Some GRADE_COMPARATIVE], 118)
].

(** utg/migrations/m_0001_include_short_forms_in_full.py:48 *)
Definition m1_OLD_PARTICIPLE_CACHE : dict key nat := dict_literal [
  ([Some TIME_PRESENT; Some VOICE_DIRECT; Some NUMBER_SINGULAR; Some CASE_INSTRUMENTAL; None; Some ANIMALITY_ANIMATE], 104);
  ([Some TIME_FUTURE; Some VOICE_DIRECT; Some NUMBER_PLURAL; Some CASE_NOMINATIVE; None; Some ANIMALITY_INANIMATE], 157);
  ([Some TIME_FUTURE; Some VOICE_REVERSE; Some NUMBER_SINGULAR; Some CASE_ACCUSATIVE; None; Some ANIMALITY_ANIMATE], 174);
  ([Some TIME_PRESENT; Some VOICE_REVERSE; Some NUMBER_SINGULAR; Some CASE_INSTRUMENTAL; None; Some ANIMALITY_INANIMATE], 129);
  ([Some TIME_PRESENT; Some VOICE_REVERSE; Some NUMBER_SINGULAR; Some CASE_ACCUSATIVE; None; Some ANIMALITY_ANIMATE], 126);
  ([Some TIME_PRESENT; Some VOICE_REVERSE; Some NUMBER_PLURAL; Some CASE_DATIVE; None; Some ANIMALITY_INANIMATE], 137);
  ([Some TIME_FUTURE; Some VOICE_DIRECT; Some NUMBER_SINGULAR; Some CASE_GENITIVE; None; Some ANIMALITY_INANIMATE], 147);
  ([Some TIME_PAST; Some VOICE_DIRECT; Some NUMBER_SINGULAR; Some CASE_PREPOSITIONAL; Some GENDER_FEMININE; Some ANIMALITY_INANIMATE], 35);
  ([Some TIME_FUTURE; Some VOICE_REVERSE; Some NUMBER_PLURAL; Some CASE_GENITIVE; None; Some ANIMALITY_ANIMATE], 182);
  ([Some TIME_PAST; Some VOICE_DIRECT; Some NUMBER_PLURAL; Some CASE_PREPOSITIONAL; None; Some ANIMALITY_INANIMATE], 47);
  ([Some TIME_PRESENT; Some VOICE_REVERSE; Some NUMBER_PLURAL; Some CASE_PREPOSITIONAL; None; Some ANIMALITY_ANIMATE], 142);
  ([Some TIME_PAST; Some VOICE_REVERSE; Some NUMBER_SINGULAR; Some CASE_ACCUSATIVE; Some GENDER_MASCULINE; Some ANIMALITY_ANIMATE], 66);
  ([Some TIME_PAST; Some VOICE_DIRECT; Some NUMBER_SINGULAR; Some CASE_NOMINATIVE; Some GENDER_FEMININE; Some ANIMALITY_INANIMATE], 5);
  ([Some TIME_PAST; Some VOICE_DIRECT; Some NUMBER_SINGULAR; Some CASE_ACCUSATIVE; Some GENDER_MASCULINE; Some ANIMALITY_ANIMATE], 18);
  ([Some TIME_PRESENT; Some VOICE_DIRECT; Some NUMBER_PLURAL; Some CASE_ACCUSATIVE; None; Some ANIMALITY_ANIMATE], 114);
  ([Some TIME_PAST; Some VOICE_REVERSE; Some NUMBER_PLURAL; Some CASE_GENITIVE; None; Some ANIMALITY_INANIMATE], 87);
  ([Some TIME_PAST; Some VOICE_DIRECT; Some NUMBER_PLURAL; Some CASE_INSTRUMENTAL; None; Some ANIMALITY_ANIMATE], 44);
  ([Some TIME_PRESENT; Some VOICE_DIRECT; Some NUMBER_PLURAL; Some CASE_DATIVE; None; Some ANIMALITY_INANIMATE], 113);
  ([Some TIME_PRESENT; Some VOICE_REVERSE; Some NUMBER_SINGULAR; Some CASE_ACCUSATIVE; None; Some ANIMALITY_INANIMATE], 127);
  ([Some TIME_PAST; Some VOICE_DIRECT; Some NUMBER_SINGULAR; Some CASE_NOMINATIVE; Some GENDER_FEMININE; Some ANIMALITY_ANIMATE], 4);
  ([Some TIME_PRESENT; Some VOICE_REVERSE; Some NUMBER_SINGULAR; Some CASE_NOMINATIVE; None; Some ANIMALITY_INANIMATE], 121);
  ([Some TIME_PAST; Some VOICE_REVERSE; Some NUMBER_SINGULAR; Some CASE_NOMINATIVE; Some GENDER_MASCULINE; Some ANIMALITY_INANIMATE], 49);
  ([Some TIME_PAST; Some VOICE_DIRECT; Some NUMBER_SINGULAR; Some CASE_ACCUSATIVE; Some GENDER_NEUTER; Some ANIMALITY_INANIMATE], 21);
  ([Some TIME_PRESENT; Some VOICE_DIRECT; Some NUMBER_PLURAL; Some CASE_GENITIVE; None; Some ANIMALITY_ANIMATE], 110);
  ([Some TIME_PAST; Some VOICE_DIRECT; Some NUMBER_SINGULAR; Some CASE_PREPOSITIONAL; Some GENDER_NEUTER; Some ANIMALITY_ANIMATE], 32);
  ([Some TIME_PAST; Some VOICE_REVERSE; Some NUMBER_PLURAL; Some CASE_INSTRUMENTAL; None; Some ANIMALITY_ANIMATE], 92);
  ([Some TIME_PAST; Some VOICE_DIRECT; Some NUMBER_SINGULAR; Some CASE_GENITIVE; Some GENDER_FEMININE; Some ANIMALITY_INANIMATE], 11);
  ([Some TIME_FUTURE; Some VOICE_REVERSE; Some NUMBER_SINGULAR; Some CASE_DATIVE; None; Some ANIMALITY_ANIMATE], 172);
  ([Some TIME_FUTURE; Some VOICE_DIRECT; Some NUMBER_SINGULAR; Some CASE_DATIVE; None; Some ANIMALITY_INANIMATE], 149);
  ([Some TIME_PAST; Some VOICE_DIRECT; Some NUMBER_SINGULAR; Some CASE_INSTRUMENTAL; Some GENDER_NEUTER; Some ANIMALITY_ANIMATE], 26);
  ([Some TIME_FUTURE; Some VOICE_DIRECT; Some NUMBER_PLURAL; Some CASE_INSTRUMENTAL; None; Some ANIMALITY_INANIMATE], 165);
  ([Some TIME_FUTURE; Some VOICE_DIRECT; Some NUMBER_PLURAL; Some CASE_PREPOSITIONAL; None; Some ANIMALITY_INANIMATE], 167);
  ([Some TIME_FUTURE; Some VOICE_DIRECT; Some NUMBER_SINGULAR; Some CASE_GENITIVE; None; Some ANIMALITY_ANIMATE], 146);
  ([Some TIME_PAST; Some VOICE_DIRECT; Some NUMBER_SINGULAR; Some CASE_GENITIVE; Some GENDER_MASCULINE; Some ANIMALITY_ANIMATE], 6);
  ([Some TIME_FUTURE; Some VOICE_REVERSE; Some NUMBER_PLURAL; Some CASE_ACCUSATIVE; None; Some ANIMALITY_ANIMATE], 186);
  ([Some TIME_FUTURE; Some VOICE_REVERSE; Some NUMBER_SINGULAR; Some CASE_INSTRUMENTAL; None; Some ANIMALITY_ANIMATE], 176);
  ([Some TIME_PAST; Some VOICE_REVERSE; Some NUMBER_SINGULAR; Some CASE_DATIVE; Some GENDER_NEUTER; Some ANIMALITY_INANIMATE], 63);
  ([Some TIME_PRESENT; Some VOICE_DIRECT; Some NUMBER_PLURAL; Some CASE_INSTRUMENTAL; None; Some ANIMALITY_ANIMATE], 116);
  ([Some TIME_PAST; Some VOICE_DIRECT; Some NUMBER_SINGULAR; Some CASE_ACCUSATIVE; Some GENDER_MASCULINE; Some ANIMALITY_INANIMATE], 19);
  ([Some TIME_PAST; Some VOICE_REVERSE; Some NUMBER_SINGULAR; Some CASE_PREPOSITIONAL; Some GENDER_MASCULINE; Some ANIMALITY_INANIMATE], 79);
  ([Some TIME_FUTURE; Some VOICE_REVERSE; Some NUMBER_PLURAL; Some CASE_DATIVE; None; Some ANIMALITY_INANIMATE], 185);
  ([Some TIME_PAST; Some VOICE_REVERSE; Some NUMBER_SINGULAR; Some CASE_INSTRUMENTAL; Some GENDER_MASCULINE; Some ANIMALITY_INANIMATE], 73);
  ([Some TIME_PRESENT; Some VOICE_REVERSE; Some NUMBER_SINGULAR; Some CASE_DATIVE; None; Some ANIMALITY_INANIMATE], 125);
  ([Some TIME_PAST; Some VOICE_REVERSE; Some NUMBER_SINGULAR; Some CASE_ACCUSATIVE; Some GENDER_FEMININE; Some ANIMALITY_INANIMATE], 71);
  ([Some TIME_PRESENT; Some VOICE_REVERSE; Some NUMBER_PLURAL; Some CASE_GENITIVE; None; Some ANIMALITY_INANIMATE], 135);
  ([Some TIME_FUTURE; Some VOICE_REVERSE; Some NUMBER_PLURAL; Some CASE_DATIVE; None; Some ANIMALITY_ANIMATE], 184);
  ([Some TIME_FUTURE; Some VOICE_REVERSE; Some NUMBER_PLURAL; Some CASE_INSTRUMENTAL; None; Some ANIMALITY_INANIMATE], 189);
  ([Some TIME_PRESENT; Some VOICE_REVERSE; Some NUMBER_PLURAL; Some CASE_ACCUSATIVE; None; Some ANIMALITY_ANIMATE], 138);
  ([Some TIME_FUTURE; Some VOICE_REVERSE; Some NUMBER_SINGULAR; Some CASE_PREPOSITIONAL; None; Some ANIMALITY_INANIMATE], 179);
  ([Some TIME_FUTURE; Some VOICE_DIRECT; Some NUMBER_SINGULAR; Some CASE_NOMINATIVE; None; Some ANIMALITY_INANIMATE], 145);
  ([Some TIME_FUTURE; Some VOICE_REVERSE; Some NUMBER_SINGULAR; Some CASE_GENITIVE; None; Some ANIMALITY_ANIMATE], 170);
  ([Some TIME_PAST; Some VOICE_DIRECT; Some NUMBER_SINGULAR; Some CASE_PREPOSITIONAL; Some GENDER_MASCULINE; Some ANIMALITY_INANIMATE], 31);
  ([Some TIME_PAST; Some VOICE_REVERSE; Some NUMBER_SINGULAR; Some CASE_GENITIVE; Some GENDER_FEMININE; Some ANIMALITY_ANIMATE], 58);
  ([Some TIME_PRESENT; Some VOICE_REVERSE; Some NUMBER_PLURAL; Some CASE_NOMINATIVE; None; Some ANIMALITY_ANIMATE], 132);
  ([Some TIME_PAST; Some VOICE_REVERSE; Some NUMBER_SINGULAR; Some CASE_DATIVE; Some GENDER_FEMININE; Some ANIMALITY_INANIMATE], 65);
  ([Some TIME_PAST; Some VOICE_REVERSE; Some NUMBER_SINGULAR; Some CASE_GENITIVE; Some GENDER_MASCULINE; Some ANIMALITY_INANIMATE], 55);
  ([Some TIME_PAST; Some VOICE_DIRECT; Some NUMBER_PLURAL; Some CASE_INSTRUMENTAL; None; Some ANIMALITY_INANIMATE], 45);
  ([Some TIME_PAST; Some VOICE_DIRECT; Some NUMBER_SINGULAR; Some CASE_INSTRUMENTAL; Some GENDER_NEUTER; Some ANIMALITY_INANIMATE], 27);
  ([Some TIME_PAST; Some VOICE_REVERSE; Some NUMBER_PLURAL; Some CASE_ACCUSATIVE; None; Some ANIMALITY_ANIMATE], 90);
  ([Some TIME_PAST; Some VOICE_REVERSE; Some NUMBER_SINGULAR; Some CASE_DATIVE; Some GENDER_MASCULINE; Some ANIMALITY_ANIMATE], 60);
  ([Some TIME_PRESENT; Some VOICE_DIRECT; Some NUMBER_SINGULAR; Some CASE_GENITIVE; None; Some ANIMALITY_ANIMATE], 98);
  ([Some TIME_PAST; Some VOICE_REVERSE; Some NUMBER_SINGULAR; Some CASE_ACCUSATIVE; Some GENDER_NEUTER; Some ANIMALITY_INANIMATE], 69);
  ([Some TIME_PAST; Some VOICE_REVERSE; Some NUMBER_SINGULAR; Some CASE_NOMINATIVE; Some GENDER_MASCULINE; Some ANIMALITY_ANIMATE], 48);
  ([Some TIME_PRESENT; Some VOICE_DIRECT; Some NUMBER_SINGULAR; Some CASE_GENITIVE; None; Some ANIMALITY_INANIMATE], 99);
  ([Some TIME_PRESENT; Some VOICE_REVERSE; Some NUMBER_PLURAL; Some CASE_DATIVE; None; Some ANIMALITY_ANIMATE], 136);
  ([Some TIME_FUTURE; Some VOICE_DIRECT; Some NUMBER_PLURAL; Some CASE_GENITIVE; None; Some ANIMALITY_ANIMATE], 158);
  ([Some TIME_FUTURE; Some VOICE_DIRECT; Some NUMBER_SINGULAR; Some CASE_INSTRUMENTAL; None; Some ANIMALITY_INANIMATE], 153);
  ([Some TIME_PAST; Some VOICE_DIRECT; Some NUMBER_SINGULAR; Some CASE_ACCUSATIVE; Some GENDER_FEMININE; Some ANIMALITY_ANIMATE], 22);
  ([Some TIME_FUTURE; Some VOICE_DIRECT; Some NUMBER_SINGULAR; Some CASE_PREPOSITIONAL; None; Some ANIMALITY_INANIMATE], 155);
  ([Some TIME_PRESENT; Some VOICE_DIRECT; Some NUMBER_SINGULAR; Some CASE_NOMINATIVE; None; Some ANIMALITY_ANIMATE], 96);
  ([Some TIME_PAST; Some VOICE_REVERSE; Some NUMBER_SINGULAR; Some CASE_INSTRUMENTAL; Some GENDER_FEMININE; Some ANIMALITY_ANIMATE], 76);
  ([Some TIME_PAST; Some VOICE_REVERSE; Some NUMBER_PLURAL; Some CASE_PREPOSITIONAL; None; Some ANIMALITY_ANIMATE], 94);
  ([Some TIME_PAST; Some VOICE_REVERSE; Some NUMBER_SINGULAR; Some CASE_ACCUSATIVE; Some GENDER_NEUTER; Some ANIMALITY_ANIMATE], 68);
  ([Some TIME_PAST; Some VOICE_DIRECT; Some NUMBER_PLURAL; Some CASE_NOMINATIVE; None; Some ANIMALITY_INANIMATE], 37);
  ([Some TIME_PAST; Some VOICE_DIRECT; Some NUMBER_SINGULAR; Some CASE_NOMINATIVE; Some GENDER_NEUTER; Some ANIMALITY_INANIMATE], 3);
  ([Some TIME_PRESENT; Some VOICE_REVERSE; Some NUMBER_PLURAL; Some CASE_ACCUSATIVE; None; Some ANIMALITY_INANIMATE], 139);
  ([Some TIME_PAST; Some VOICE_DIRECT; Some NUMBER_PLURAL; Some CASE_GENITIVE; None; Some ANIMALITY_INANIMATE], 39);
  ([Some TIME_PRESENT; Some VOICE_REVERSE; Some NUMBER_SINGULAR; Some CASE_DATIVE; None; Some ANIMALITY_ANIMATE], 124);
  ([Some TIME_PRESENT; Some VOICE_DIRECT; Some NUMBER_SINGULAR; Some CASE_PREPOSITIONAL; None; Some ANIMALITY_INANIMATE], 107);
  ([Some TIME_PAST; Some VOICE_REVERSE; Some NUMBER_SINGULAR; Some CASE_NOMINATIVE; Some GENDER_NEUTER; Some ANIMALITY_INANIMATE], 51);
  ([Some TIME_PAST; Some VOICE_REVERSE; Some NUMBER_PLURAL; Some CASE_GENITIVE; None; Some ANIMALITY_ANIMATE], 86);
  ([Some TIME_PAST; Some VOICE_DIRECT; Some NUMBER_SINGULAR; Some CASE_ACCUSATIVE; Some GENDER_NEUTER; Some ANIMALITY_ANIMATE], 20);
  ([Some TIME_PRESENT; Some VOICE_DIRECT; Some NUMBER_PLURAL; Some CASE_INSTRUMENTAL; None; Some ANIMALITY_INANIMATE], 117);
  ([Some TIME_PAST; Some VOICE_DIRECT; Some NUMBER_SINGULAR; Some CASE_INSTRUMENTAL; Some GENDER_FEMININE; Some ANIMALITY_ANIMATE], 28);
  ([Some TIME_PRESENT; Some VOICE_REVERSE; Some NUMBER_SINGULAR; Some CASE_PREPOSITIONAL; None; Some ANIMALITY_INANIMATE], 131);
  ([Some TIME_PAST; Some VOICE_REVERSE; Some NUMBER_SINGULAR; Some CASE_ACCUSATIVE; Some GENDER_FEMININE; Some ANIMALITY_ANIMATE], 70);
  ([Some TIME_PRESENT; Some VOICE_DIRECT; Some NUMBER_SINGULAR; Some CASE_DATIVE; None; Some ANIMALITY_ANIMATE], 100);
  ([Some TIME_PAST; Some VOICE_DIRECT; Some NUMBER_PLURAL; Some CASE_GENITIVE; None; Some ANIMALITY_ANIMATE], 38);
  ([Some TIME_PAST; Some VOICE_REVERSE; Some NUMBER_PLURAL; Some CASE_DATIVE; None; Some ANIMALITY_INANIMATE], 89);
  ([Some TIME_PAST; Some VOICE_DIRECT; Some NUMBER_PLURAL; Some CASE_DATIVE; None; Some ANIMALITY_INANIMATE], 41);
  ([Some TIME_PAST; Some VOICE_DIRECT; Some NUMBER_SINGULAR; Some CASE_NOMINATIVE; Some GENDER_MASCULINE; Some ANIMALITY_ANIMATE], 0);
  ([Some TIME_PAST; Some VOICE_REVERSE; Some NUMBER_PLURAL; Some CASE_INSTRUMENTAL; None; Some ANIMALITY_INANIMATE], 93);
  ([Some TIME_PAST; Some VOICE_DIRECT; Some NUMBER_SINGULAR; Some CASE_PREPOSITIONAL; Some GENDER_MASCULINE; Some ANIMALITY_ANIMATE], 30);
  ([Some TIME_PRESENT; Some VOICE_REVERSE; Some NUMBER_SINGULAR; Some CASE_INSTRUMENTAL; None; Some ANIMALITY_ANIMATE], 128);
  ([Some TIME_PAST; Some VOICE_DIRECT; Some NUMBER_SINGULAR; Some CASE_DATIVE; Some GENDER_MASCULINE; Some ANIMALITY_ANIMATE], 12);
  ([Some TIME_PAST; Some VOICE_REVERSE; Some NUMBER_SINGULAR; Some CASE_INSTRUMENTAL; Some GENDER_NEUTER; Some ANIMALITY_INANIMATE], 75);
  ([Some TIME_PRESENT; Some VOICE_REVERSE; Some NUMBER_SINGULAR; Some CASE_NOMINATIVE; None; Some ANIMALITY_ANIMATE], 120);
  ([Some TIME_PRESENT; Some VOICE_DIRECT; Some NUMBER_PLURAL; Some CASE_PREPOSITIONAL; None; Some ANIMALITY_INANIMATE], 119);
  ([Some TIME_PAST; Some VOICE_DIRECT; Some NUMBER_SINGULAR; Some CASE_GENITIVE; Some GENDER_MASCULINE; Some ANIMALITY_INANIMATE], 7);
  ([Some TIME_FUTURE; Some VOICE_REVERSE; Some NUMBER_SINGULAR; Some CASE_NOMINATIVE; None; Some ANIMALITY_ANIMATE], 168);
  ([Some TIME_PAST; Some VOICE_DIRECT; Some NUMBER_SINGULAR; Some CASE_DATIVE; Some GENDER_FEMININE; Some ANIMALITY_INANIMATE], 17);
  ([Some TIME_FUTURE; Some VOICE_DIRECT; Some NUMBER_SINGULAR; Some CASE_INSTRUMENTAL; None; Some ANIMALITY_ANIMATE], 152);
  ([Some TIME_FUTURE; Some VOICE_REVERSE; Some NUMBER_SINGULAR; Some CASE_NOMINATIVE; None; Some ANIMALITY_INANIMATE], 169);
  ([Some TIME_PAST; Some VOICE_DIRECT; Some NUMBER_SINGULAR; Some CASE_GENITIVE; Some GENDER_FEMININE; Some ANIMALITY_ANIMATE], 10);
  ([Some TIME_PRESENT; Some VOICE_REVERSE; Some NUMBER_SINGULAR; Some CASE_GENITIVE; None; Some ANIMALITY_INANIMATE], 123);
  ([Some TIME_FUTURE; Some VOICE_REVERSE; Some NUMBER_PLURAL; Some CASE_NOMINATIVE; None; Some ANIMALITY_ANIMATE], 180);
  ([Some TIME_PRESENT; Some VOICE_REVERSE; Some NUMBER_PLURAL; Some CASE_INSTRUMENTAL; None; Some ANIMALITY_INANIMATE], 141);
  ([Some TIME_PRESENT; Some VOICE_DIRECT; Some NUMBER_PLURAL; Some CASE_ACCUSATIVE; None; Some ANIMALITY_INANIMATE], 115);
  ([Some TIME_PRESENT; Some VOICE_REVERSE; Some NUMBER_SINGULAR; Some CASE_GENITIVE; None; Some ANIMALITY_ANIMATE], 122);
  ([Some TIME_FUTURE; Some VOICE_DIRECT; Some NUMBER_PLURAL; Some CASE_ACCUSATIVE; None; Some ANIMALITY_ANIMATE], 162);
  ([Some TIME_FUTURE; Some VOICE_REVERSE; Some NUMBER_PLURAL; Some CASE_GENITIVE; None; Some ANIMALITY_INANIMATE], 183);
  ([Some TIME_PAST; Some VOICE_DIRECT; Some NUMBER_SINGULAR; Some CASE_ACCUSATIVE; Some GENDER_FEMININE; Some ANIMALITY_INANIMATE], 23);
  ([Some TIME_PAST; Some VOICE_REVERSE; Some NUMBER_PLURAL; Some CASE_NOMINATIVE; None; Some ANIMALITY_INANIMATE], 85);
  ([Some TIME_PAST; Some VOICE_DIRECT; Some NUMBER_SINGULAR; Some CASE_INSTRUMENTAL; Some GENDER_MASCULINE; Some ANIMALITY_INANIMATE], 25);
  ([Some TIME_FUTURE; Some VOICE_DIRECT; Some NUMBER_PLURAL; Some CASE_DATIVE; None; Some ANIMALITY_INANIMATE], 161);
  ([Some TIME_FUTURE; Some VOICE_REVERSE; Some NUMBER_SINGULAR; Some CASE_ACCUSATIVE; None; Some ANIMALITY_INANIMATE], 175);
  ([Some TIME_FUTURE; Some VOICE_REVERSE; Some NUMBER_PLURAL; Some CASE_PREPOSITIONAL; None; Some ANIMALITY_ANIMATE], 190);
  ([Some TIME_PAST; Some VOICE_REVERSE; Some NUMBER_SINGULAR; Some CASE_ACCUSATIVE; Some GENDER_MASCULINE; Some ANIMALITY_INANIMATE], 67);
  ([Some TIME_PAST; Some VOICE_DIRECT; Some NUMBER_SINGULAR; Some CASE_DATIVE; Some GENDER_NEUTER; Some ANIMALITY_INANIMATE], 15);
  ([Some TIME_FUTURE; Some VOICE_REVERSE; Some NUMBER_SINGULAR; Some CASE_GENITIVE; None; Some ANIMALITY_INANIMATE], 171);
  ([Some TIME_PRESENT; Some VOICE_REVERSE; Some NUMBER_PLURAL; Some CASE_INSTRUMENTAL; None; Some ANIMALITY_ANIMATE], 140);
  ([Some TIME_PAST; Some VOICE_DIRECT; Some NUMBER_PLURAL; Some CASE_DATIVE; None; Some ANIMALITY_ANIMATE], 40);
  ([Some TIME_FUTURE; Some VOICE_REVERSE; Some NUMBER_PLURAL; Some CASE_INSTRUMENTAL; None; Some ANIMALITY_ANIMATE], 188);
  ([Some TIME_PAST; Some VOICE_REVERSE; Some NUMBER_SINGULAR; Some CASE_GENITIVE; Some GENDER_MASCULINE; Some ANIMALITY_ANIMATE], 54);
  ([Some TIME_PRESENT; Some VOICE_DIRECT; Some NUMBER_SINGULAR; Some CASE_DATIVE; None; Some ANIMALITY_INANIMATE], 101);
  ([Some TIME_PAST; Some VOICE_REVERSE; Some NUMBER_SINGULAR; Some CASE_INSTRUMENTAL; Some GENDER_NEUTER; Some ANIMALITY_ANIMATE], 74);
  ([Some TIME_PAST; Some VOICE_REVERSE; Some NUMBER_SINGULAR; Some CASE_GENITIVE; Some GENDER_FEMININE; Some ANIMALITY_INANIMATE], 59);
  ([Some TIME_FUTURE; Some VOICE_DIRECT; Some NUMBER_SINGULAR; Some CASE_ACCUSATIVE; None; Some ANIMALITY_INANIMATE], 151);
  ([Some TIME_PAST; Some VOICE_DIRECT; Some NUMBER_SINGULAR; Some CASE_NOMINATIVE; Some GENDER_MASCULINE; Some ANIMALITY_INANIMATE], 1);
  ([Some TIME_PRESENT; Some VOICE_DIRECT; Some NUMBER_PLURAL; Some CASE_DATIVE; None; Some ANIMALITY_ANIMATE], 112);
  ([Some TIME_FUTURE; Some VOICE_DIRECT; Some NUMBER_SINGULAR; Some CASE_ACCUSATIVE; None; Some ANIMALITY_ANIMATE], 150);
  ([Some TIME_PAST; Some VOICE_REVERSE; Some NUMBER_SINGULAR; Some CASE_NOMINATIVE; Some GENDER_FEMININE; Some ANIMALITY_ANIMATE], 52);
  ([Some TIME_FUTURE; Some VOICE_DIRECT; Some NUMBER_PLURAL; Some CASE_PREPOSITIONAL; None; Some ANIMALITY_ANIMATE], 166);
  ([Some TIME_PRESENT; Some VOICE_DIRECT; Some NUMBER_PLURAL; Some CASE_NOMINATIVE; None; Some ANIMALITY_ANIMATE], 108);
  ([Some TIME_FUTURE; Some VOICE_REVERSE; Some NUMBER_SINGULAR; Some CASE_DATIVE; None; Some ANIMALITY_INANIMATE], 173);
  ([Some TIME_PAST; Some VOICE_REVERSE; Some NUMBER_SINGULAR; Some CASE_NOMINATIVE; Some GENDER_FEMININE; Some ANIMALITY_INANIMATE], 53);
  ([Some TIME_FUTURE; Some VOICE_DIRECT; Some NUMBER_PLURAL; Some CASE_INSTRUMENTAL; None; Some ANIMALITY_ANIMATE], 164);
  ([Some TIME_PAST; Some VOICE_DIRECT; Some NUMBER_SINGULAR; Some CASE_PREPOSITIONAL; Some GENDER_NEUTER; Some ANIMALITY_INANIMATE], 33);
  ([Some TIME_PAST; Some VOICE_REVERSE; Some NUMBER_SINGULAR; Some CASE_PREPOSITIONAL; Some GENDER_NEUTER; Some ANIMALITY_ANIMATE], 80);
  ([Some TIME_PRESENT; Some VOICE_DIRECT; Some NUMBER_PLURAL; Some CASE_PREPOSITIONAL; None; Some ANIMALITY_ANIMATE], 118);
  ([Some TIME_PAST; Some VOICE_DIRECT; Some NUMBER_PLURAL; Some CASE_NOMINATIVE; None; Some ANIMALITY_ANIMATE], 36);
  ([Some TIME_PRESENT; Some VOICE_DIRECT; Some NUMBER_PLURAL; Some CASE_GENITIVE; None; Some ANIMALITY_INANIMATE], 111);
  ([Some TIME_PAST; Some VOICE_REVERSE; Some NUMBER_SINGULAR; Some CASE_PREPOSITIONAL; Some GENDER_FEMININE; Some ANIMALITY_INANIMATE], 83);
  ([Some TIME_PRESENT; Some VOICE_DIRECT; Some NUMBER_SINGULAR; Some CASE_NOMINATIVE; None; Some ANIMALITY_INANIMATE], 97);
  ([Some TIME_FUTURE; Some VOICE_REVERSE; Some NUMBER_PLURAL; Some CASE_NOMINATIVE; None; Some ANIMALITY_INANIMATE], 181);
  ([Some TIME_PAST; Some VOICE_REVERSE; Some NUMBER_SINGULAR; Some CASE_PREPOSITIONAL; Some GENDER_NEUTER; Some ANIMALITY_INANIMATE], 81);
  ([Some TIME_PRESENT; Some VOICE_DIRECT; Some NUMBER_SINGULAR; Some CASE_ACCUSATIVE; None; Some ANIMALITY_INANIMATE], 103);
  ([Some TIME_PAST; Some VOICE_REVERSE; Some NUMBER_SINGULAR; Some CASE_PREPOSITIONAL; Some GENDER_MASCULINE; Some ANIMALITY_ANIMATE], 78);
  ([Some TIME_PAST; Some VOICE_REVERSE; Some NUMBER_PLURAL; Some CASE_NOMINATIVE; None; Some ANIMALITY_ANIMATE], 84);
  ([Some TIME_PAST; Some VOICE_REVERSE; Some NUMBER_PLURAL; Some CASE_PREPOSITIONAL; None; Some ANIMALITY_INANIMATE], 95);
  ([Some TIME_FUTURE; Some VOICE_DIRECT; Some NUMBER_PLURAL; Some CASE_GENITIVE; None; Some ANIMALITY_INANIMATE], 159);
  ([Some TIME_PAST; Some VOICE_DIRECT; Some NUMBER_SINGULAR; Some CASE_NOMINATIVE; Some GENDER_NEUTER; Some ANIMALITY_ANIMATE], 2);
  ([Some TIME_FUTURE; Some VOICE_REVERSE; Some NUMBER_PLURAL; Some CASE_PREPOSITIONAL; None; Some ANIMALITY_INANIMATE], 191);
  ([Some TIME_FUTURE; Some VOICE_DIRECT; Some NUMBER_PLURAL; Some CASE_ACCUSATIVE; None; Some ANIMALITY_INANIMATE], 163);
  ([Some TIME_FUTURE; Some VOICE_DIRECT; Some NUMBER_SINGULAR; Some CASE_PREPOSITIONAL; None; Some ANIMALITY_ANIMATE], 154);
  ([Some TIME_PAST; Some VOICE_DIRECT; Some NUMBER_SINGULAR; Some CASE_DATIVE; Some GENDER_NEUTER; Some ANIMALITY_ANIMATE], 14);
  ([Some TIME_PAST; Some VOICE_DIRECT; Some NUMBER_PLURAL; Some CASE_PREPOSITIONAL; None; Some ANIMALITY_ANIMATE], 46);
  ([Some TIME_PAST; Some VOICE_REVERSE; Some NUMBER_SINGULAR; Some CASE_INSTRUMENTAL; Some GENDER_FEMININE; Some ANIMALITY_INANIMATE], 77);
  ([Some TIME_PRESENT; Some VOICE_DIRECT; Some NUMBER_PLURAL; Some CASE_NOMINATIVE; None; Some ANIMALITY_INANIMATE], 109);
  ([Some TIME_PAST; Some VOICE_DIRECT; Some NUMBER_SINGULAR; Some CASE_GENITIVE; Some GENDER_NEUTER; Some ANIMALITY_INANIMATE], 9);
  ([Some TIME_FUTURE; Some VOICE_REVERSE; Some NUMBER_PLURAL; Some CASE_ACCUSATIVE; None; Some ANIMALITY_INANIMATE], 187);
  ([Some TIME_PAST; Some VOICE_REVERSE; Some NUMBER_PLURAL; Some CASE_ACCUSATIVE; None; Some ANIMALITY_INANIMATE], 91);
  ([Some TIME_PAST; Some VOICE_DIRECT; Some NUMBER_SINGULAR; Some CASE_INSTRUMENTAL; Some GENDER_MASCULINE; Some ANIMALITY_ANIMATE], 24);
  ([Some TIME_FUTURE; Some VOICE_DIRECT; Some NUMBER_PLURAL; Some CASE_NOMINATIVE; None; Some ANIMALITY_ANIMATE], 156);
  ([Some TIME_PRESENT; Some VOICE_DIRECT; Some NUMBER_SINGULAR; Some CASE_ACCUSATIVE; None; Some ANIMALITY_ANIMATE], 102);
  ([Some TIME_PAST; Some VOICE_DIRECT; Some NUMBER_SINGULAR; Some CASE_GENITIVE; Some GENDER_NEUTER; Some ANIMALITY_ANIMATE], 8);
  ([Some TIME_PRESENT; Some VOICE_DIRECT; Some NUMBER_SINGULAR; Some CASE_INSTRUMENTAL; None; Some ANIMALITY_INANIMATE], 105);
  ([Some TIME_FUTURE; Some VOICE_DIRECT; Some NUMBER_SINGULAR; Some CASE_NOMINATIVE; None; Some ANIMALITY_ANIMATE], 144);
  ([Some TIME_PAST; Some VOICE_REVERSE; Some NUMBER_SINGULAR; Some CASE_DATIVE; Some GENDER_MASCULINE; Some ANIMALITY_INANIMATE], 61);
  ([Some TIME_PAST; Some VOICE_DIRECT; Some NUMBER_SINGULAR; Some CASE_PREPOSITIONAL; Some GENDER_FEMININE; Some ANIMALITY_ANIMATE], 34);
  ([Some TIME_PAST; Some VOICE_REVERSE; Some NUMBER_PLURAL; Some CASE_DATIVE; None; Some ANIMALITY_ANIMATE], 88);
  ([Some TIME_PAST; Some VOICE_DIRECT; Some NUMBER_SINGULAR; Some CASE_DATIVE; Some GENDER_FEMININE; Some ANIMALITY_ANIMATE], 16);
  ([Some TIME_PAST; Some VOICE_REVERSE; Some NUMBER_SINGULAR; Some CASE_DATIVE; Some GENDER_FEMININE; Some ANIMALITY_ANIMATE], 64);
  ([Some TIME_FUTURE; Some VOICE_REVERSE; Some NUMBER_SINGULAR; Some CASE_PREPOSITIONAL; None; Some ANIMALITY_ANIMATE], 178);
  ([Some TIME_PAST; Some VOICE_REVERSE; Some NUMBER_SINGULAR; Some CASE_PREPOSITIONAL; Some GENDER_FEMININE; Some ANIMALITY_ANIMATE], 82);
  ([Some TIME_PRESENT; Some VOICE_REVERSE; Some NUMBER_SINGULAR; Some CASE_PREPOSITIONAL; None; Some ANIMALITY_ANIMATE], 130);
  ([Some TIME_PAST; Some VOICE_DIRECT; Some NUMBER_SINGULAR; Some CASE_DATIVE; Some GENDER_MASCULINE; Some ANIMALITY_INANIMATE], 13);
  ([Some TIME_PAST; Some VOICE_DIRECT; Some NUMBER_PLURAL; Some CASE_ACCUSATIVE; None; Some ANIMALITY_ANIMATE], 42);
  ([Some TIME_PRESENT; Some VOICE_REVERSE; Some NUMBER_PLURAL; Some CASE_PREPOSITIONAL; None; Some ANIMALITY_INANIMATE], 143);
  ([Some TIME_PRESENT; Some VOICE_REVERSE; Some NUMBER_PLURAL; Some CASE_NOMINATIVE; None; Some ANIMALITY_INANIMATE], 133);
  ([Some TIME_FUTURE; Some VOICE_REVERSE; Some NUMBER_SINGULAR; Some CASE_INSTRUMENTAL; None; Some ANIMALITY_INANIMATE], 177);
  ([Some TIME_PAST; Some VOICE_DIRECT; Some NUMBER_PLURAL; Some CASE_ACCUSATIVE; None; Some ANIMALITY_INANIMATE], 43);
  ([Some TIME_PAST; Some VOICE_REVERSE; Some NUMBER_SINGULAR; Some CASE_GENITIVE; Some GENDER_NEUTER; Some ANIMALITY_ANIMATE], 56);
  ([Some TIME_PRESENT; Some VOICE_DIRECT; Some NUMBER_SINGULAR; Some CASE_PREPOSITIONAL; None; Some ANIMALITY_ANIMATE], 106);
  ([Some TIME_PRESENT; Some VOICE_REVERSE; Some NUMBER_PLURAL; Some CASE_GENITIVE; None; Some ANIMALITY_ANIMATE], 134);
  ([Some TIME_PAST; Some VOICE_REVERSE; Some NUMBER_SINGULAR; Some CASE_INSTRUMENTAL; Some GENDER_MASCULINE; Some ANIMALITY_ANIMATE], 72);
  ([Some TIME_PAST; Some VOICE_REVERSE; Some NUMBER_SINGULAR; Some CASE_GENITIVE; Some GENDER_NEUTER; Some ANIMALITY_INANIMATE], 57);
  ([Some TIME_PAST; Some VOICE_DIRECT; Some NUMBER_SINGULAR; Some CASE_INSTRUMENTAL; Some GENDER_FEMININE; Some ANIMALITY_INANIMATE], 29);
  ([Some TIME_FUTURE; Some VOICE_DIRECT; Some NUMBER_SINGULAR; Some CASE_DATIVE; None; Some ANIMALITY_ANIMATE], 148);
  ([Some TIME_PAST; Some VOICE_REVERSE; Some NUMBER_SINGULAR; Some CASE_DATIVE; Some GENDER_NEUTER; Some ANIMALITY_ANIMATE], 62);
  ([Some TIME_FUTURE; Some VOICE_DIRECT; Some NUMBER_PLURAL; Some CASE_DATIVE; None; Some ANIMALITY_ANIMATE], 160);
  ([Some TIME_PAST; Some VOICE_REVERSE; Some NUMBER_SINGULAR; Some CASE_NOMINATIVE; Some GENDER_NEUTER; Some ANIMALITY_ANIMATE], 50)
].

(** The attributes (relation, record name) evaluated when utg/migrations/m_0001_include_short_forms_in_full.py
    is imported (its module-level tables), in order of first occurrence *)
Definition m1_attributes : list (relation * str) := [
  (R_NUMBER, u "PLURAL");
  (R_CASE, u "INSTRUMENTAL");
  (R_ANIMALITY, u "ANIMATE");
  (R_GRADE, u "POSITIVE");
  (R_NUMBER, u "SINGULAR");
  (R_CASE, u "NOMINATIVE");
  (R_GENDER, u "FEMININE");
  (R_ANIMALITY, u "INANIMATE");
  (R_GRADE, u "COMPARATIVE");
  (R_CASE, u "DATIVE");
  (R_GENDER, u "MASCULINE");
  (R_GRADE, u "SUPERLATIVE");
  (R_CASE, u "GENITIVE");
  (R_GENDER, u "NEUTER");
  (R_CASE, u "ACCUSATIVE");
  (R_CASE, u "PREPOSITIONAL");
  (R_TIME, u "PRESENT");
  (R_VOICE, u "DIRECT");
  (R_TIME, u "FUTURE");
  (R_VOICE, u "REVERSE");
  (R_TIME, u "PAST")
].

(** The attributes (relation, record name) evaluated when utg/migrations/m_0003_change_verb_forms.py
    is imported (its module-level tables), in order of first occurrence *)
Definition m3_attributes : list (relation * str) := [
  (R_VERB_FORM, u "CONDITIONAL");
  (R_TIME, u "FUTURE");
  (R_NUMBER, u "PLURAL");
  (R_PERSON, u "SECOND");
  (R_VERB_FORM, u "INDICATIVE");
  (R_TIME, u "PAST");
  (R_NUMBER, u "SINGULAR");
  (R_GENDER, u "FEMININE");
  (R_VERB_FORM, u "IMPERATIVE");
  (R_PERSON, u "THIRD");
  (R_PERSON, u "FIRST");
  (R_TIME, u "PRESENT");
  (R_GENDER, u "MASCULINE");
  (R_GENDER, u "NEUTER");
  (R_VERB_FORM, u "INFINITIVE")
].

(** The attributes (relation, record name) evaluated when utg/migrations/m_0006_per_word_type_restrictions.py
    is imported (its module-level tables), in order of first occurrence *)
Definition m6_attributes : list (relation * str) := [
  (R_WORD_TYPE, u "NOUN");
  (R_NOUN_FORM, u "NORMAL");
  (R_NUMBER, u "SINGULAR");
  (R_CASE, u "NOMINATIVE");
  (R_CASE, u "GENITIVE");
  (R_CASE, u "DATIVE");
  (R_CASE, u "ACCUSATIVE");
  (R_CASE, u "INSTRUMENTAL");
  (R_CASE, u "PREPOSITIONAL");
  (R_NUMBER, u "PLURAL");
  (R_NOUN_FORM, u "COUNTABLE");
  (R_WORD_TYPE, u "ADJECTIVE");
  (R_ADJECTIVE_FORM, u "FULL");
  (R_GENDER, u "MASCULINE");
  (R_ANIMALITY, u "ANIMATE");
  (R_GRADE, u "POSITIVE");
  (R_GRADE, u "COMPARATIVE");
  (R_GRADE, u "SUPERLATIVE");
  (R_ANIMALITY, u "INANIMATE");
  (R_GENDER, u "NEUTER");
  (R_GENDER, u "FEMININE");
  (R_ADJECTIVE_FORM, u "SHORT");
  (R_WORD_TYPE, u "PRONOUN");
  (R_PERSON, u "FIRST");
  (R_PERSON, u "SECOND");
  (R_PERSON, u "THIRD");
  (R_WORD_TYPE, u "VERB");
  (R_VERB_FORM, u "INFINITIVE");
  (R_VERB_FORM, u "INDICATIVE");
  (R_TIME, u "PAST");
  (R_TIME, u "PRESENT");
  (R_TIME, u "FUTURE");
  (R_VERB_FORM, u "CONDITIONAL");
  (R_VERB_FORM, u "IMPERATIVE");
  (R_WORD_TYPE, u "PARTICIPLE");
  (R_PARTICIPLE_FORM, u "FULL");
  (R_VOICE, u "DIRECT");
  (R_VOICE, u "REVERSE");
  (R_PARTICIPLE_FORM, u "SHORT");
  (R_WORD_TYPE, u "INTEGER");
  (R_WORD_TYPE, u "TEXT");
  (R_WORD_TYPE, u "PREPOSITION");
  (R_PREPOSITION_FORM, u "NORMAL");
  (R_PREPOSITION_FORM, u "ALTERNATIVE");
  (R_PREPOSITION_FORM, u "SPECIAL")
].

(** The attributes (relation, record name) evaluated when utg/migrations/m_0007_reduce_words_forms.py
    is imported (its module-level tables), in order of first occurrence *)
Definition m7_attributes : list (relation * str) := [
  (R_WORD_TYPE, u "NOUN");
  (R_NOUN_FORM, u "NORMAL");
  (R_NUMBER, u "SINGULAR");
  (R_CASE, u "NOMINATIVE");
  (R_CASE, u "GENITIVE");
  (R_CASE, u "DATIVE");
  (R_CASE, u "ACCUSATIVE");
  (R_CASE, u "INSTRUMENTAL");
  (R_CASE, u "PREPOSITIONAL");
  (R_NUMBER, u "PLURAL");
  (R_NOUN_FORM, u "COUNTABLE");
  (R_WORD_TYPE, u "ADJECTIVE");
  (R_ADJECTIVE_FORM, u "FULL");
  (R_GRADE, u "POSITIVE");
  (R_GENDER, u "MASCULINE");
  (R_ANIMALITY, u "ANIMATE");
  (R_ANIMALITY, u "INANIMATE");
  (R_GENDER, u "NEUTER");
  (R_GENDER, u "FEMININE");
  (R_GRADE, u "COMPARATIVE");
  (R_GRADE, u "SUPERLATIVE");
  (R_ADJECTIVE_FORM, u "SHORT");
  (R_WORD_TYPE, u "PRONOUN");
  (R_PERSON, u "FIRST");
  (R_PERSON, u "SECOND");
  (R_PERSON, u "THIRD");
  (R_WORD_TYPE, u "VERB");
  (R_VERB_FORM, u "INFINITIVE");
  (R_VERB_FORM, u "INDICATIVE");
  (R_TIME, u "PAST");
  (R_TIME, u "PRESENT");
  (R_TIME, u "FUTURE");
  (R_VERB_FORM, u "IMPERATIVE");
  (R_WORD_TYPE, u "PARTICIPLE");
  (R_PARTICIPLE_FORM, u "FULL");
  (R_PARTICIPLE_FORM, u "SHORT");
  (R_WORD_TYPE, u "INTEGER");
  (R_WORD_TYPE, u "TEXT");
  (R_WORD_TYPE, u "PREPOSITION");
  (R_PREPOSITION_FORM, u "NORMAL");
  (R_PREPOSITION_FORM, u "ALTERNATIVE");
  (R_PREPOSITION_FORM, u "SPECIAL")
].

(** The attributes (relation, record name) evaluated when utg/migrations/m_0008_lower_animiality_nearest_priority.py
    is imported (its module-level tables), in order of first occurrence *)
Definition m8_attributes : list (relation * str) := [
  (R_WORD_TYPE, u "NOUN");
  (R_NOUN_FORM, u "NORMAL");
  (R_NUMBER, u "SINGULAR");
  (R_CASE, u "NOMINATIVE");
  (R_CASE, u "GENITIVE");
  (R_CASE, u "DATIVE");
  (R_CASE, u "ACCUSATIVE");
  (R_CASE, u "INSTRUMENTAL");
  (R_CASE, u "PREPOSITIONAL");
  (R_NUMBER, u "PLURAL");
  (R_NOUN_FORM, u "COUNTABLE");
  (R_WORD_TYPE, u "ADJECTIVE");
  (R_ADJECTIVE_FORM, u "FULL");
  (R_GRADE, u "POSITIVE");
  (R_ANIMALITY, u "ANIMATE");
  (R_GENDER, u "MASCULINE");
  (R_GENDER, u "NEUTER");
  (R_GENDER, u "FEMININE");
  (R_ANIMALITY, u "INANIMATE");
  (R_GRADE, u "COMPARATIVE");
  (R_GRADE, u "SUPERLATIVE");
  (R_ADJECTIVE_FORM, u "SHORT");
  (R_WORD_TYPE, u "PRONOUN");
  (R_PERSON, u "FIRST");
  (R_PERSON, u "SECOND");
  (R_PERSON, u "THIRD");
  (R_WORD_TYPE, u "VERB");
  (R_VERB_FORM, u "INFINITIVE");
  (R_VERB_FORM, u "INDICATIVE");
  (R_TIME, u "PAST");
  (R_TIME, u "PRESENT");
  (R_TIME, u "FUTURE");
  (R_VERB_FORM, u "IMPERATIVE");
  (R_WORD_TYPE, u "PARTICIPLE");
  (R_PARTICIPLE_FORM, u "FULL");
  (R_PARTICIPLE_FORM, u "SHORT");
  (R_WORD_TYPE, u "INTEGER");
  (R_WORD_TYPE, u "TEXT");
  (R_WORD_TYPE, u "PREPOSITION");
  (R_PREPOSITION_FORM, u "NORMAL");
  (R_PREPOSITION_FORM, u "ALTERNATIVE");
  (R_PREPOSITION_FORM, u "SPECIAL")
].

(** The attributes (relation, record name) evaluated when utg/migrations/m_0009_pronoun_modernization.py
    is imported (its module-level tables), in order of first occurrence *)
Definition m9_attributes : list (relation * str) := [
  (R_WORD_TYPE, u "NOUN");
  (R_NOUN_FORM, u "NORMAL");
  (R_NUMBER, u "SINGULAR");
  (R_CASE, u "NOMINATIVE");
  (R_CASE, u "GENITIVE");
  (R_CASE, u "DATIVE");
  (R_CASE, u "ACCUSATIVE");
  (R_CASE, u "INSTRUMENTAL");
  (R_CASE, u "PREPOSITIONAL");
  (R_NUMBER, u "PLURAL");
  (R_NOUN_FORM, u "COUNTABLE");
  (R_WORD_TYPE, u "ADJECTIVE");
  (R_ADJECTIVE_FORM, u "FULL");
  (R_GRADE, u "POSITIVE");
  (R_ANIMALITY, u "ANIMATE");
  (R_GENDER, u "MASCULINE");
  (R_GENDER, u "NEUTER");
  (R_GENDER, u "FEMININE");
  (R_ANIMALITY, u "INANIMATE");
  (R_GRADE, u "COMPARATIVE");
  (R_GRADE, u "SUPERLATIVE");
  (R_ADJECTIVE_FORM, u "SHORT");
  (R_WORD_TYPE, u "PRONOUN");
  (R_WORD_TYPE, u "VERB");
  (R_VERB_FORM, u "INFINITIVE");
  (R_VERB_FORM, u "INDICATIVE");
  (R_TIME, u "PAST");
  (R_TIME, u "PRESENT");
  (R_PERSON, u "FIRST");
  (R_PERSON, u "SECOND");
  (R_PERSON, u "THIRD");
  (R_TIME, u "FUTURE");
  (R_VERB_FORM, u "IMPERATIVE");
  (R_WORD_TYPE, u "PARTICIPLE");
  (R_PARTICIPLE_FORM, u "FULL");
  (R_PARTICIPLE_FORM, u "SHORT");
  (R_WORD_TYPE, u "INTEGER");
  (R_WORD_TYPE, u "TEXT");
  (R_WORD_TYPE, u "PREPOSITION");
  (R_PREPOSITION_FORM, u "NORMAL");
  (R_PREPOSITION_FORM, u "ALTERNATIVE");
  (R_PREPOSITION_FORM, u "SPECIAL")
].

(** utg/migrations/m_0007_reduce_words_forms.py:29-46 *)
Definition m7_OLD_CACHES_NOUN : dict key nat := dict_literal [
  ([Some NOUN_FORM_NORMAL; Some NUMBER_SINGULAR; Some CASE_NOMINATIVE], 0);
  ([Some NOUN_FORM_NORMAL; Some NUMBER_SINGULAR; Some CASE_GENITIVE], 1);
  ([Some NOUN_FORM_NORMAL; Some NUMBER_SINGULAR; Some CASE_DATIVE], 2);
  ([Some NOUN_FORM_NORMAL; Some NUMBER_SINGULAR; Some CASE_ACCUSATIVE], 3);
  ([Some NOUN_FORM_NORMAL; Some NUMBER_SINGULAR; Some CASE_INSTRUMENTAL], 4);
  ([Some NOUN_FORM_NORMAL; Some NUMBER_SINGULAR; Some CASE_PREPOSITIONAL], 5);
  ([Some NOUN_FORM_NORMAL; Some NUMBER_PLURAL; Some CASE_NOMINATIVE], 6);
  ([Some NOUN_FORM_NORMAL; Some NUMBER_PLURAL; Some CASE_GENITIVE], 7);
  ([Some NOUN_FORM_NORMAL; Some NUMBER_PLURAL; Some CASE_DATIVE], 8);
  ([Some NOUN_FORM_NORMAL; Some NUMBER_PLURAL; Some CASE_ACCUSATIVE], 9);
  ([Some NOUN_FORM_NORMAL; Some NUMBER_PLURAL; Some CASE_INSTRUMENTAL], 10);
  ([Some NOUN_FORM_NORMAL; Some NUMBER_PLURAL; Some CASE_PREPOSITIONAL], 11);
  ([Some NOUN_FORM_COUNTABLE; Some NUMBER_PLURAL; Some CASE_NOMINATIVE], 12);
  ([Some NOUN_FORM_COUNTABLE; Some NUMBER_PLURAL; Some CASE_GENITIVE], 13);
  ([Some NOUN_FORM_COUNTABLE; Some NUMBER_PLURAL; Some CASE_DATIVE], 14);
  ([Some NOUN_FORM_COUNTABLE; Some NUMBER_PLURAL; Some CASE_ACCUSATIVE], 15);
  ([Some NOUN_FORM_COUNTABLE; Some NUMBER_PLURAL; Some CASE_INSTRUMENTAL], 16);
  ([Some NOUN_FORM_COUNTABLE; Some NUMBER_PLURAL; Some CASE_PREPOSITIONAL], 17)
].

(** utg/migrations/m_0007_reduce_words_forms.py:47-194 *)
Definition m7_OLD_CACHES_ADJECTIVE : dict key nat := dict_literal [
  ([Some ADJECTIVE_FORM_FULL; Some GRADE_POSITIVE; Some NUMBER_SINGULAR; Some CASE_NOMINATIVE; Some GENDER_MASCULINE; Some ANIMALITY_ANIMATE], 0);
  ([Some ADJECTIVE_FORM_FULL; Some GRADE_POSITIVE; Some NUMBER_SINGULAR; Some CASE_NOMINATIVE; Some GENDER_MASCULINE; Some ANIMALITY_INANIMATE], 3);
  ([Some ADJECTIVE_FORM_FULL; Some GRADE_POSITIVE; Some NUMBER_SINGULAR; Some CASE_NOMINATIVE; Some GENDER_NEUTER; Some ANIMALITY_ANIMATE], 6);
  ([Some ADJECTIVE_FORM_FULL; Some GRADE_POSITIVE; Some NUMBER_SINGULAR; Some CASE_NOMINATIVE; Some GENDER_NEUTER; Some ANIMALITY_INANIMATE], 9);
  ([Some ADJECTIVE_FORM_FULL; Some GRADE_POSITIVE; Some NUMBER_SINGULAR; Some CASE_NOMINATIVE; Some GENDER_FEMININE; Some ANIMALITY_ANIMATE], 12);
  ([Some ADJECTIVE_FORM_FULL; Some GRADE_POSITIVE; Some NUMBER_SINGULAR; Some CASE_NOMINATIVE; Some GENDER_FEMININE; Some ANIMALITY_INANIMATE], 15);
  ([Some ADJECTIVE_FORM_FULL; Some GRADE_POSITIVE; Some NUMBER_SINGULAR; Some CASE_GENITIVE; Some GENDER_MASCULINE; Some ANIMALITY_ANIMATE], 18);
  ([Some ADJECTIVE_FORM_FULL; Some GRADE_POSITIVE; Some NUMBER_SINGULAR; Some CASE_GENITIVE; Some GENDER_MASCULINE; Some ANIMALITY_INANIMATE], 21);
  ([Some ADJECTIVE_FORM_FULL; Some GRADE_POSITIVE; Some NUMBER_SINGULAR; Some CASE_GENITIVE; Some GENDER_NEUTER; Some ANIMALITY_ANIMATE], 24);
  ([Some ADJECTIVE_FORM_FULL; Some GRADE_POSITIVE; Some NUMBER_SINGULAR; Some CASE_GENITIVE; Some GENDER_NEUTER; Some ANIMALITY_INANIMATE], 27);
  ([Some ADJECTIVE_FORM_FULL; Some GRADE_POSITIVE; Some NUMBER_SINGULAR; Some CASE_GENITIVE; Some GENDER_FEMININE; Some ANIMALITY_ANIMATE], 30);
  ([Some ADJECTIVE_FORM_FULL; Some GRADE_POSITIVE; Some NUMBER_SINGULAR; Some CASE_GENITIVE; Some GENDER_FEMININE; Some ANIMALITY_INANIMATE], 33);
  ([Some ADJECTIVE_FORM_FULL; Some GRADE_POSITIVE; Some NUMBER_SINGULAR; Some CASE_DATIVE; Some GENDER_MASCULINE; Some ANIMALITY_ANIMATE], 36);
  ([Some ADJECTIVE_FORM_FULL; Some GRADE_POSITIVE; Some NUMBER_SINGULAR; Some CASE_DATIVE; Some GENDER_MASCULINE; Some ANIMALITY_INANIMATE], 39);
  ([Some ADJECTIVE_FORM_FULL; Some GRADE_POSITIVE; Some NUMBER_SINGULAR; Some CASE_DATIVE; Some GENDER_NEUTER; Some ANIMALITY_ANIMATE], 42);
  ([Some ADJECTIVE_FORM_FULL; Some GRADE_POSITIVE; Some NUMBER_SINGULAR; Some CASE_DATIVE; Some GENDER_NEUTER; Some ANIMALITY_INANIMATE], 45);
  ([Some ADJECTIVE_FORM_FULL; Some GRADE_POSITIVE; Some NUMBER_SINGULAR; Some CASE_DATIVE; Some GENDER_FEMININE; Some ANIMALITY_ANIMATE], 48);
  ([Some ADJECTIVE_FORM_FULL; Some GRADE_POSITIVE; Some NUMBER_SINGULAR; Some CASE_DATIVE; Some GENDER_FEMININE; Some ANIMALITY_INANIMATE], 51);
  ([Some ADJECTIVE_FORM_FULL; Some GRADE_POSITIVE; Some NUMBER_SINGULAR; Some CASE_ACCUSATIVE; Some GENDER_MASCULINE; Some ANIMALITY_ANIMATE], 54);
  ([Some ADJECTIVE_FORM_FULL; Some GRADE_POSITIVE; Some NUMBER_SINGULAR; Some CASE_ACCUSATIVE; Some GENDER_MASCULINE; Some ANIMALITY_INANIMATE], 57);
  ([Some ADJECTIVE_FORM_FULL; Some GRADE_POSITIVE; Some NUMBER_SINGULAR; Some CASE_ACCUSATIVE; Some GENDER_NEUTER; Some ANIMALITY_ANIMATE], 60);
  ([Some ADJECTIVE_FORM_FULL; Some GRADE_POSITIVE; Some NUMBER_SINGULAR; Some CASE_ACCUSATIVE; Some GENDER_NEUTER; Some ANIMALITY_INANIMATE], 63);
  ([Some ADJECTIVE_FORM_FULL; Some GRADE_POSITIVE; Some NUMBER_SINGULAR; Some CASE_ACCUSATIVE; Some GENDER_FEMININE; Some ANIMALITY_ANIMATE], 66);
  ([Some ADJECTIVE_FORM_FULL; Some GRADE_POSITIVE; Some NUMBER_SINGULAR; Some CASE_ACCUSATIVE; Some GENDER_FEMININE; Some ANIMALITY_INANIMATE], 69);
  ([Some ADJECTIVE_FORM_FULL; Some GRADE_POSITIVE; Some NUMBER_SINGULAR; Some CASE_INSTRUMENTAL; Some GENDER_MASCULINE; Some ANIMALITY_ANIMATE], 72);
  ([Some ADJECTIVE_FORM_FULL; Some GRADE_POSITIVE; Some NUMBER_SINGULAR; Some CASE_INSTRUMENTAL; Some GENDER_MASCULINE; Some ANIMALITY_INANIMATE], 75);
  ([Some ADJECTIVE_FORM_FULL; Some GRADE_POSITIVE; Some NUMBER_SINGULAR; Some CASE_INSTRUMENTAL; Some GENDER_NEUTER; Some ANIMALITY_ANIMATE], 78);
  ([Some ADJECTIVE_FORM_FULL; Some GRADE_POSITIVE; Some NUMBER_SINGULAR; Some CASE_INSTRUMENTAL; Some GENDER_NEUTER; Some ANIMALITY_INANIMATE], 81);
  ([Some ADJECTIVE_FORM_FULL; Some GRADE_POSITIVE; Some NUMBER_SINGULAR; Some CASE_INSTRUMENTAL; Some GENDER_FEMININE; Some ANIMALITY_ANIMATE], 84);
  ([Some ADJECTIVE_FORM_FULL; Some GRADE_POSITIVE; Some NUMBER_SINGULAR; Some CASE_INSTRUMENTAL; Some GENDER_FEMININE; Some ANIMALITY_INANIMATE], 87);
  ([Some ADJECTIVE_FORM_FULL; Some GRADE_POSITIVE; Some NUMBER_SINGULAR; Some CASE_PREPOSITIONAL; Some GENDER_MASCULINE; Some ANIMALITY_ANIMATE], 90);
  ([Some ADJECTIVE_FORM_FULL; Some GRADE_POSITIVE; Some NUMBER_SINGULAR; Some CASE_PREPOSITIONAL; Some GENDER_MASCULINE; Some ANIMALITY_INANIMATE], 93);
  ([Some ADJECTIVE_FORM_FULL; Some GRADE_POSITIVE; Some NUMBER_SINGULAR; Some CASE_PREPOSITIONAL; Some GENDER_NEUTER; Some ANIMALITY_ANIMATE], 96);
  ([Some ADJECTIVE_FORM_FULL; Some GRADE_POSITIVE; Some NUMBER_SINGULAR; Some CASE_PREPOSITIONAL; Some GENDER_NEUTER; Some ANIMALITY_INANIMATE], 99);
  ([Some ADJECTIVE_FORM_FULL; Some GRADE_POSITIVE; Some NUMBER_SINGULAR; Some CASE_PREPOSITIONAL; Some GENDER_FEMININE; Some ANIMALITY_ANIMATE], 102);
  ([Some ADJECTIVE_FORM_FULL; Some GRADE_POSITIVE; Some NUMBER_SINGULAR; Some CASE_PREPOSITIONAL; Some GENDER_FEMININE; Some ANIMALITY_INANIMATE], 105);
  ([Some ADJECTIVE_FORM_FULL; Some GRADE_POSITIVE; Some NUMBER_PLURAL; Some CASE_NOMINATIVE; None; Some ANIMALITY_ANIMATE], 108);
  ([Some ADJECTIVE_FORM_FULL; Some GRADE_POSITIVE; Some NUMBER_PLURAL; Some CASE_NOMINATIVE; None; Some ANIMALITY_INANIMATE], 111);
  ([Some ADJECTIVE_FORM_FULL; Some GRADE_POSITIVE; Some NUMBER_PLURAL; Some CASE_GENITIVE; None; Some ANIMALITY_ANIMATE], 114);
  ([Some ADJECTIVE_FORM_FULL; Some GRADE_POSITIVE; Some NUMBER_PLURAL; Some CASE_GENITIVE; None; Some ANIMALITY_INANIMATE], 117);
  ([Some ADJECTIVE_FORM_FULL; Some GRADE_POSITIVE; Some NUMBER_PLURAL; Some CASE_DATIVE; None; Some ANIMALITY_ANIMATE], 120);
  ([Some ADJECTIVE_FORM_FULL; Some GRADE_POSITIVE; Some NUMBER_PLURAL; Some CASE_DATIVE; None; Some ANIMALITY_INANIMATE], 123);
  ([Some ADJECTIVE_FORM_FULL; Some GRADE_POSITIVE; Some NUMBER_PLURAL; Some CASE_ACCUSATIVE; None; Some ANIMALITY_ANIMATE], 126);
  ([Some ADJECTIVE_FORM_FULL; Some GRADE_POSITIVE; Some NUMBER_PLURAL; Some CASE_ACCUSATIVE; None; Some ANIMALITY_INANIMATE], 129);
  ([Some ADJECTIVE_FORM_FULL; Some GRADE_POSITIVE; Some NUMBER_PLURAL; Some CASE_INSTRUMENTAL; None; Some ANIMALITY_ANIMATE], 132);
  ([Some ADJECTIVE_FORM_FULL; Some GRADE_POSITIVE; Some NUMBER_PLURAL; Some CASE_INSTRUMENTAL; None; Some ANIMALITY_INANIMATE], 135);
  ([Some ADJECTIVE_FORM_FULL; Some GRADE_POSITIVE; Some NUMBER_PLURAL; Some CASE_PREPOSITIONAL; None; Some ANIMALITY_ANIMATE], 138);
  ([Some ADJECTIVE_FORM_FULL; Some GRADE_POSITIVE; Some NUMBER_PLURAL; Some CASE_PREPOSITIONAL; None; Some ANIMALITY_INANIMATE], 141);
  ([Some ADJECTIVE_FORM_FULL; Some GRADE_COMPARATIVE; Some NUMBER_SINGULAR; Some CASE_NOMINATIVE; Some GENDER_MASCULINE; Some ANIMALITY_ANIMATE], 1);
  ([Some ADJECTIVE_FORM_FULL; Some GRADE_COMPARATIVE; Some NUMBER_SINGULAR; Some CASE_NOMINATIVE; Some GENDER_MASCULINE; Some ANIMALITY_INANIMATE], 4);
  ([Some ADJECTIVE_FORM_FULL; Some GRADE_COMPARATIVE; Some NUMBER_SINGULAR; Some CASE_NOMINATIVE; Some GENDER_NEUTER; Some ANIMALITY_ANIMATE], 7);
  ([Some ADJECTIVE_FORM_FULL; Some GRADE_COMPARATIVE; Some NUMBER_SINGULAR; Some CASE_NOMINATIVE; Some GENDER_NEUTER; Some ANIMALITY_INANIMATE], 10);
  ([Some ADJECTIVE_FORM_FULL; Some GRADE_COMPARATIVE; Some NUMBER_SINGULAR; Some CASE_NOMINATIVE; Some GENDER_FEMININE; Some ANIMALITY_ANIMATE], 13);
  ([Some ADJECTIVE_FORM_FULL; Some GRADE_COMPARATIVE; Some NUMBER_SINGULAR; Some CASE_NOMINATIVE; Some GENDER_FEMININE; Some ANIMALITY_INANIMATE], 16);
  ([Some ADJECTIVE_FORM_FULL; Some GRADE_COMPARATIVE; Some NUMBER_SINGULAR; Some CASE_GENITIVE; Some GENDER_MASCULINE; Some ANIMALITY_ANIMATE], 19);
  ([Some ADJECTIVE_FORM_FULL; Some GRADE_COMPARATIVE; Some NUMBER_SINGULAR; Some CASE_GENITIVE; Some GENDER_MASCULINE; Some ANIMALITY_INANIMATE], 22);
  ([Some ADJECTIVE_FORM_FULL; Some GRADE_COMPARATIVE; Some NUMBER_SINGULAR; Some CASE_GENITIVE; Some GENDER_NEUTER; Some ANIMALITY_ANIMATE], 25);
  ([Some ADJECTIVE_FORM_FULL; Some GRADE_COMPARATIVE; Some NUMBER_SINGULAR; Some CASE_GENITIVE; Some GENDER_NEUTER; Some ANIMALITY_INANIMATE], 28);
  ([Some ADJECTIVE_FORM_FULL; Some GRADE_COMPARATIVE; Some NUMBER_SINGULAR; Some CASE_GENITIVE; Some GENDER_FEMININE; Some ANIMALITY_ANIMATE], 31);
  ([Some ADJECTIVE_FORM_FULL; Some GRADE_COMPARATIVE; Some NUMBER_SINGULAR; Some CASE_GENITIVE; Some GENDER_FEMININE; Some ANIMALITY_INANIMATE], 34);
  ([Some ADJECTIVE_FORM_FULL; Some GRADE_COMPARATIVE; Some NUMBER_SINGULAR; Some CASE_DATIVE; Some GENDER_MASCULINE; Some ANIMALITY_ANIMATE], 37);
  ([Some ADJECTIVE_FORM_FULL; Some GRADE_COMPARATIVE; Some NUMBER_SINGULAR; Some CASE_DATIVE; Some GENDER_MASCULINE; Some ANIMALITY_INANIMATE], 40);
  ([Some ADJECTIVE_FORM_FULL; Some GRADE_COMPARATIVE; Some NUMBER_SINGULAR; Some CASE_DATIVE; Some GENDER_NEUTER; Some ANIMALITY_ANIMATE], 43);
  ([Some ADJECTIVE_FORM_FULL; Some GRADE_COMPARATIVE; Some NUMBER_SINGULAR; Some CASE_DATIVE; Some GENDER_NEUTER; Some ANIMALITY_INANIMATE], 46);
  ([Some ADJECTIVE_FORM_FULL; Some GRADE_COMPARATIVE; Some NUMBER_SINGULAR; Some CASE_DATIVE; Some GENDER_FEMININE; Some ANIMALITY_ANIMATE], 49);
  ([Some ADJECTIVE_FORM_FULL; Some GRADE_COMPARATIVE; Some NUMBER_SINGULAR; Some CASE_DATIVE; Some GENDER_FEMININE; Some ANIMALITY_INANIMATE], 52);
  ([Some ADJECTIVE_FORM_FULL; Some GRADE_COMPARATIVE; Some NUMBER_SINGULAR; Some CASE_ACCUSATIVE; Some GENDER_MASCULINE; Some ANIMALITY_ANIMATE], 55);
  ([Some ADJECTIVE_FORM_FULL; Some GRADE_COMPARATIVE; Some NUMBER_SINGULAR; Some CASE_ACCUSATIVE; Some GENDER_MASCULINE; Some ANIMALITY_INANIMATE], 58);
  ([Some ADJECTIVE_FORM_FULL; Some GRADE_COMPARATIVE; Some NUMBER_SINGULAR; Some CASE_ACCUSATIVE; Some GENDER_NEUTER; Some ANIMALITY_ANIMATE], 61);
  ([Some ADJECTIVE_FORM_FULL; Some GRADE_COMPARATIVE; Some NUMBER_SINGULAR; Some CASE_ACCUSATIVE; Some GENDER_NEUTER; Some ANIMALITY_INANIMATE], 64);
  ([Some ADJECTIVE_FORM_FULL; Some GRADE_COMPARATIVE; Some NUMBER_SINGULAR; Some CASE_ACCUSATIVE; Some GENDER_FEMININE; Some ANIMALITY_ANIMATE], 67);
  ([Some ADJECTIVE_FORM_FULL; Some GRADE_COMPARATIVE; Some NUMBER_SINGULAR; Some CASE_ACCUSATIVE; Some GENDER_FEMININE; Some ANIMALITY_INANIMATE], 70);
  ([Some ADJECTIVE_FORM_FULL; Some GRADE_COMPARATIVE; Some NUMBER_SINGULAR; Some CASE_INSTRUMENTAL; Some GENDER_MASCULINE; Some ANIMALITY_ANIMATE], 73);
  ([Some ADJECTIVE_FORM_FULL; Some GRADE_COMPARATIVE; Some NUMBER_SINGULAR; Some CASE_INSTRUMENTAL; Some GENDER_MASCULINE; Some ANIMALITY_INANIMATE], 76);
  ([Some ADJECTIVE_FORM_FULL; Some GRADE_COMPARATIVE; Some NUMBER_SINGULAR; Some CASE_INSTRUMENTAL; Some GENDER_NEUTER; Some ANIMALITY_ANIMATE], 79);
  ([Some ADJECTIVE_FORM_FULL; Some GRADE_COMPARATIVE; Some NUMBER_SINGULAR; Some CASE_INSTRUMENTAL; Some GENDER_NEUTER; Some ANIMALITY_INANIMATE], 82);
  ([Some ADJECTIVE_FORM_FULL; Some GRADE_COMPARATIVE; Some NUMBER_SINGULAR; Some CASE_INSTRUMENTAL; Some GENDER_FEMININE; Some ANIMALITY_ANIMATE], 85);
  ([Some ADJECTIVE_FORM_FULL; Some GRADE_COMPARATIVE; Some NUMBER_SINGULAR; Some CASE_INSTRUMENTAL; Some GENDER_FEMININE; Some ANIMALITY_INANIMATE], 88);
  ([Some ADJECTIVE_FORM_FULL; Some GRADE_COMPARATIVE; Some NUMBER_SINGULAR; Some CASE_PREPOSITIONAL; Some GENDER_MASCULINE; Some ANIMALITY_ANIMATE], 91);
  ([Some ADJECTIVE_FORM_FULL; Some GRADE_COMPARATIVE; Some NUMBER_SINGULAR; Some CASE_PREPOSITIONAL; Some GENDER_MASCULINE; Some ANIMALITY_INANIMATE], 94);
  ([Some ADJECTIVE_FORM_FULL; Some GRADE_COMPARATIVE; Some NUMBER_SINGULAR; Some CASE_PREPOSITIONAL; Some GENDER_NEUTER; Some ANIMALITY_ANIMATE], 97);
  ([Some ADJECTIVE_FORM_FULL; Some GRADE_COMPARATIVE; Some NUMBER_SINGULAR; Some CASE_PREPOSITIONAL; Some GENDER_NEUTER; Some ANIMALITY_INANIMATE], 100);
  ([Some ADJECTIVE_FORM_FULL; Some GRADE_COMPARATIVE; Some NUMBER_SINGULAR; Some CASE_PREPOSITIONAL; Some GENDER_FEMININE; Some ANIMALITY_ANIMATE], 103);
  ([Some ADJECTIVE_FORM_FULL; Some GRADE_COMPARATIVE; Some NUMBER_SINGULAR; Some CASE_PREPOSITIONAL; Some GENDER_FEMININE; Some ANIMALITY_INANIMATE], 106);
  ([Some ADJECTIVE_FORM_FULL; Some GRADE_COMPARATIVE; Some NUMBER_PLURAL; Some CASE_NOMINATIVE; None; Some ANIMALITY_ANIMATE], 109);
  ([Some ADJECTIVE_FORM_FULL; Some GRADE_COMPARATIVE; Some NUMBER_PLURAL; Some CASE_NOMINATIVE; None; Some ANIMALITY_INANIMATE], 112);
  ([Some ADJECTIVE_FORM_FULL; Some GRADE_COMPARATIVE; Some NUMBER_PLURAL; Some CASE_GENITIVE; None; Some ANIMALITY_ANIMATE], 115);
  ([Some ADJECTIVE_FORM_FULL; Some GRADE_COMPARATIVE; Some NUMBER_PLURAL; Some CASE_GENITIVE; None; Some ANIMALITY_INANIMATE], 118);
  ([Some ADJECTIVE_FORM_FULL; Some GRADE_COMPARATIVE; Some NUMBER_PLURAL; Some CASE_DATIVE; None; Some ANIMALITY_ANIMATE], 121);
  ([Some ADJECTIVE_FORM_FULL; Some GRADE_COMPARATIVE; Some NUMBER_PLURAL; Some CASE_DATIVE; None; Some ANIMALITY_INANIMATE], 124);
  ([Some ADJECTIVE_FORM_FULL; Some GRADE_COMPARATIVE; Some NUMBER_PLURAL; Some CASE_ACCUSATIVE; None; Some ANIMALITY_ANIMATE], 127);
  ([Some ADJECTIVE_FORM_FULL; Some GRADE_COMPARATIVE; Some NUMBER_PLURAL; Some CASE_ACCUSATIVE; None; Some ANIMALITY_INANIMATE], 130);
  ([Some ADJECTIVE_FORM_FULL; Some GRADE_COMPARATIVE; Some NUMBER_PLURAL; Some CASE_INSTRUMENTAL; None; Some ANIMALITY_ANIMATE], 133);
  ([Some ADJECTIVE_FORM_FULL; Some GRADE_COMPARATIVE; Some NUMBER_PLURAL; Some CASE_INSTRUMENTAL; None; Some ANIMALITY_INANIMATE], 136);
  ([Some ADJECTIVE_FORM_FULL; Some GRADE_COMPARATIVE; Some NUMBER_PLURAL; Some CASE_PREPOSITIONAL; None; Some ANIMALITY_ANIMATE], 139);
  ([Some ADJECTIVE_FORM_FULL; Some GRADE_COMPARATIVE; Some NUMBER_PLURAL; Some CASE_PREPOSITIONAL; None; Some ANIMALITY_INANIMATE], 142);
  ([Some ADJECTIVE_FORM_FULL; Some GRADE_SUPERLATIVE; Some NUMBER_SINGULAR; Some CASE_NOMINATIVE; Some GENDER_MASCULINE; Some ANIMALITY_ANIMATE], 2);
  ([Some ADJECTIVE_FORM_FULL; Some GRADE_SUPERLATIVE; Some NUMBER_SINGULAR; Some CASE_NOMINATIVE; Some GENDER_MASCULINE; Some ANIMALITY_INANIMATE], 5);
  ([Some ADJECTIVE_FORM_FULL; Some GRADE_SUPERLATIVE; Some NUMBER_SINGULAR; Some CASE_NOMINATIVE; Some GENDER_NEUTER; Some ANIMALITY_ANIMATE], 8);
  ([Some ADJECTIVE_FORM_FULL; Some GRADE_SUPERLATIVE; Some NUMBER_SINGULAR; Some CASE_NOMINATIVE; Some GENDER_NEUTER; Some ANIMALITY_INANIMATE], 11);
  ([Some ADJECTIVE_FORM_FULL; Some GRADE_SUPERLATIVE; Some NUMBER_SINGULAR; Some CASE_NOMINATIVE; Some GENDER_FEMININE; Some ANIMALITY_ANIMATE], 14);
  ([Some ADJECTIVE_FORM_FULL; Some GRADE_SUPERLATIVE; Some NUMBER_SINGULAR; Some CASE_NOMINATIVE; Some GENDER_FEMININE; Some ANIMALITY_INANIMATE], 17);
  ([Some ADJECTIVE_FORM_FULL; Some GRADE_SUPERLATIVE; Some NUMBER_SINGULAR; Some CASE_GENITIVE; Some GENDER_MASCULINE; Some ANIMALITY_ANIMATE], 20);
  ([Some ADJECTIVE_FORM_FULL; Some GRADE_SUPERLATIVE; Some NUMBER_SINGULAR; Some CASE_GENITIVE; Some GENDER_MASCULINE; Some ANIMALITY_INANIMATE], 23);
  ([Some ADJECTIVE_FORM_FULL; Some GRADE_SUPERLATIVE; Some NUMBER_SINGULAR; Some CASE_GENITIVE; Some GENDER_NEUTER; Some ANIMALITY_ANIMATE], 26);
  ([Some ADJECTIVE_FORM_FULL; Some GRADE_SUPERLATIVE; Some NUMBER_SINGULAR; Some CASE_GENITIVE; Some GENDER_NEUTER; Some ANIMALITY_INANIMATE], 29);
  ([Some ADJECTIVE_FORM_FULL; Some GRADE_SUPERLATIVE; Some NUMBER_SINGULAR; Some CASE_GENITIVE; Some GENDER_FEMININE; Some ANIMALITY_ANIMATE], 32);
  ([Some ADJECTIVE_FORM_FULL; Some GRADE_SUPERLATIVE; Some NUMBER_SINGULAR; Some CASE_GENITIVE; Some GENDER_FEMININE; Some ANIMALITY_INANIMATE], 35);
  ([Some ADJECTIVE_FORM_FULL; Some GRADE_SUPERLATIVE; Some NUMBER_SINGULAR; Some CASE_DATIVE; Some GENDER_MASCULINE; Some ANIMALITY_ANIMATE], 38);
  ([Some ADJECTIVE_FORM_FULL; Some GRADE_SUPERLATIVE; Some NUMBER_SINGULAR; Some CASE_DATIVE; Some GENDER_MASCULINE; Some ANIMALITY_INANIMATE], 41);
  ([Some ADJECTIVE_FORM_FULL; Some GRADE_SUPERLATIVE; Some NUMBER_SINGULAR; Some CASE_DATIVE; Some GENDER_NEUTER; Some ANIMALITY_ANIMATE], 44);
  ([Some ADJECTIVE_FORM_FULL; Some GRADE_SUPERLATIVE; Some NUMBER_SINGULAR; Some CASE_DATIVE; Some GENDER_NEUTER; Some ANIMALITY_INANIMATE], 47);
  ([Some ADJECTIVE_FORM_FULL; Some GRADE_SUPERLATIVE; Some NUMBER_SINGULAR; Some CASE_DATIVE; Some GENDER_FEMININE; Some ANIMALITY_ANIMATE], 50);
  ([Some ADJECTIVE_FORM_FULL; Some GRADE_SUPERLATIVE; Some NUMBER_SINGULAR; Some CASE_DATIVE; Some GENDER_FEMININE; Some ANIMALITY_INANIMATE], 53);
  ([Some ADJECTIVE_FORM_FULL; Some GRADE_SUPERLATIVE; Some NUMBER_SINGULAR; Some CASE_ACCUSATIVE; Some GENDER_MASCULINE; Some ANIMALITY_ANIMATE], 56);
  ([Some ADJECTIVE_FORM_FULL; Some GRADE_SUPERLATIVE; Some NUMBER_SINGULAR; Some CASE_ACCUSATIVE; Some GENDER_MASCULINE; Some ANIMALITY_INANIMATE], 59);
  ([Some ADJECTIVE_FORM_FULL; Some GRADE_SUPERLATIVE; Some NUMBER_SINGULAR; Some CASE_ACCUSATIVE; Some GENDER_NEUTER; Some ANIMALITY_ANIMATE], 62);
  ([Some ADJECTIVE_FORM_FULL; Some GRADE_SUPERLATIVE; Some NUMBER_SINGULAR; Some CASE_ACCUSATIVE; Some GENDER_NEUTER; Some ANIMALITY_INANIMATE], 65);
  ([Some ADJECTIVE_FORM_FULL; Some GRADE_SUPERLATIVE; Some NUMBER_SINGULAR; Some CASE_ACCUSATIVE; Some GENDER_FEMININE; Some ANIMALITY_ANIMATE], 68);
  ([Some ADJECTIVE_FORM_FULL; Some GRADE_SUPERLATIVE; Some NUMBER_SINGULAR; Some CASE_ACCUSATIVE; Some GENDER_FEMININE; Some ANIMALITY_INANIMATE], 71);
  ([Some ADJECTIVE_FORM_FULL; Some GRADE_SUPERLATIVE; Some NUMBER_SINGULAR; Some CASE_INSTRUMENTAL; Some GENDER_MASCULINE; Some ANIMALITY_ANIMATE], 74);
  ([Some ADJECTIVE_FORM_FULL; Some GRADE_SUPERLATIVE; Some NUMBER_SINGULAR; Some CASE_INSTRUMENTAL; Some GENDER_MASCULINE; Some ANIMALITY_INANIMATE], 77);
  ([Some ADJECTIVE_FORM_FULL; Some GRADE_SUPERLATIVE; Some NUMBER_SINGULAR; Some CASE_INSTRUMENTAL; Some GENDER_NEUTER; Some ANIMALITY_ANIMATE], 80);
  ([Some ADJECTIVE_FORM_FULL; Some GRADE_SUPERLATIVE; Some NUMBER_SINGULAR; Some CASE_INSTRUMENTAL; Some GENDER_NEUTER; Some ANIMALITY_INANIMATE], 83);
  ([Some ADJECTIVE_FORM_FULL; Some GRADE_SUPERLATIVE; Some NUMBER_SINGULAR; Some CASE_INSTRUMENTAL; Some GENDER_FEMININE; Some ANIMALITY_ANIMATE], 86);
  ([Some ADJECTIVE_FORM_FULL; Some GRADE_SUPERLATIVE; Some NUMBER_SINGULAR; Some CASE_INSTRUMENTAL; Some GENDER_FEMININE; Some ANIMALITY_INANIMATE], 89);
  ([Some ADJECTIVE_FORM_FULL; Some GRADE_SUPERLATIVE; Some NUMBER_SINGULAR; Some CASE_PREPOSITIONAL; Some GENDER_MASCULINE; Some ANIMALITY_ANIMATE], 92);
  ([Some ADJECTIVE_FORM_FULL; Some GRADE_SUPERLATIVE; Some NUMBER_SINGULAR; Some CASE_PREPOSITIONAL; Some GENDER_MASCULINE; Some ANIMALITY_INANIMATE], 95);
  ([Some ADJECTIVE_FORM_FULL; Some GRADE_SUPERLATIVE; Some NUMBER_SINGULAR; Some CASE_PREPOSITIONAL; Some GENDER_NEUTER; Some ANIMALITY_ANIMATE], 98);
  ([Some ADJECTIVE_FORM_FULL; Some GRADE_SUPERLATIVE; Some NUMBER_SINGULAR; Some CASE_PREPOSITIONAL; Some GENDER_NEUTER; Some ANIMALITY_INANIMATE], 101);
  ([Some ADJECTIVE_FORM_FULL; Some GRADE_SUPERLATIVE; Some NUMBER_SINGULAR; Some CASE_PREPOSITIONAL; Some GENDER_FEMININE; Some ANIMALITY_ANIMATE], 104);
  ([Some ADJECTIVE_FORM_FULL; Some GRADE_SUPERLATIVE; Some NUMBER_SINGULAR; Some CASE_PREPOSITIONAL; Some GENDER_FEMININE; Some ANIMALITY_INANIMATE], 107);
  ([Some ADJECTIVE_FORM_FULL; Some GRADE_SUPERLATIVE; Some NUMBER_PLURAL; Some CASE_NOMINATIVE; None; Some ANIMALITY_ANIMATE], 110);
  ([Some ADJECTIVE_FORM_FULL; Some GRADE_SUPERLATIVE; Some NUMBER_PLURAL; Some CASE_NOMINATIVE; None; Some ANIMALITY_INANIMATE], 113);
  ([Some ADJECTIVE_FORM_FULL; Some GRADE_SUPERLATIVE; Some NUMBER_PLURAL; Some CASE_GENITIVE; None; Some ANIMALITY_ANIMATE], 116);
  ([Some ADJECTIVE_FORM_FULL; Some GRADE_SUPERLATIVE; Some NUMBER_PLURAL; Some CASE_GENITIVE; None; Some ANIMALITY_INANIMATE], 119);
  ([Some ADJECTIVE_FORM_FULL; Some GRADE_SUPERLATIVE; Some NUMBER_PLURAL; Some CASE_DATIVE; None; Some ANIMALITY_ANIMATE], 122);
  ([Some ADJECTIVE_FORM_FULL; Some GRADE_SUPERLATIVE; Some NUMBER_PLURAL; Some CASE_DATIVE; None; Some ANIMALITY_INANIMATE], 125);
  ([Some ADJECTIVE_FORM_FULL; Some GRADE_SUPERLATIVE; Some NUMBER_PLURAL; Some CASE_ACCUSATIVE; None; Some ANIMALITY_ANIMATE], 128);
  ([Some ADJECTIVE_FORM_FULL; Some GRADE_SUPERLATIVE; Some NUMBER_PLURAL; Some CASE_ACCUSATIVE; None; Some ANIMALITY_INANIMATE], 131);
  ([Some ADJECTIVE_FORM_FULL; Some GRADE_SUPERLATIVE; Some NUMBER_PLURAL; Some CASE_INSTRUMENTAL; None; Some ANIMALITY_ANIMATE], 134);
  ([Some ADJECTIVE_FORM_FULL; Some GRADE_SUPERLATIVE; Some NUMBER_PLURAL; Some CASE_INSTRUMENTAL; None; Some ANIMALITY_INANIMATE], 137);
  ([Some ADJECTIVE_FORM_FULL; Some GRADE_SUPERLATIVE; Some NUMBER_PLURAL; Some CASE_PREPOSITIONAL; None; Some ANIMALITY_ANIMATE], 140);
  ([Some ADJECTIVE_FORM_FULL; Some GRADE_SUPERLATIVE; Some NUMBER_PLURAL; Some CASE_PREPOSITIONAL; None; Some ANIMALITY_INANIMATE], 143);
  ([Some ADJECTIVE_FORM_SHORT; None; Some NUMBER_SINGULAR; None; Some GENDER_MASCULINE; None], 144);
  ([Some ADJECTIVE_FORM_SHORT; None; Some NUMBER_SINGULAR; None; Some GENDER_NEUTER; None], 145);
  ([Some ADJECTIVE_FORM_SHORT; None; Some NUMBER_SINGULAR; None; Some GENDER_FEMININE; None], 146);
  ([Some ADJECTIVE_FORM_SHORT; None; Some NUMBER_PLURAL; None; None; None], 147)
].

(** utg/migrations/m_0007_reduce_words_forms.py:195-266 *)
Definition m7_OLD_CACHES_PRONOUN : dict key nat := dict_literal [
  ([Some NUMBER_SINGULAR; Some CASE_NOMINATIVE; Some PERSON_FIRST; Some GENDER_MASCULINE], 0);
  ([Some NUMBER_SINGULAR; Some CASE_NOMINATIVE; Some PERSON_FIRST; Some GENDER_NEUTER], 1);
  ([Some NUMBER_SINGULAR; Some CASE_NOMINATIVE; Some PERSON_FIRST; Some GENDER_FEMININE], 2);
  ([Some NUMBER_SINGULAR; Some CASE_NOMINATIVE; Some PERSON_SECOND; Some GENDER_MASCULINE], 3);
  ([Some NUMBER_SINGULAR; Some CASE_NOMINATIVE; Some PERSON_SECOND; Some GENDER_NEUTER], 4);
  ([Some NUMBER_SINGULAR; Some CASE_NOMINATIVE; Some PERSON_SECOND; Some GENDER_FEMININE], 5);
  ([Some NUMBER_SINGULAR; Some CASE_NOMINATIVE; Some PERSON_THIRD; Some GENDER_MASCULINE], 6);
  ([Some NUMBER_SINGULAR; Some CASE_NOMINATIVE; Some PERSON_THIRD; Some GENDER_NEUTER], 7);
  ([Some NUMBER_SINGULAR; Some CASE_NOMINATIVE; Some PERSON_THIRD; Some GENDER_FEMININE], 8);
  ([Some NUMBER_SINGULAR; Some CASE_GENITIVE; Some PERSON_FIRST; Some GENDER_MASCULINE], 9);
  ([Some NUMBER_SINGULAR; Some CASE_GENITIVE; Some PERSON_FIRST; Some GENDER_NEUTER], 10);
  ([Some NUMBER_SINGULAR; Some CASE_GENITIVE; Some PERSON_FIRST; Some GENDER_FEMININE], 11);
  ([Some NUMBER_SINGULAR; Some CASE_GENITIVE; Some PERSON_SECOND; Some GENDER_MASCULINE], 12);
  ([Some NUMBER_SINGULAR; Some CASE_GENITIVE; Some PERSON_SECOND; Some GENDER_NEUTER], 13);
  ([Some NUMBER_SINGULAR; Some CASE_GENITIVE; Some PERSON_SECOND; Some GENDER_FEMININE], 14);
  ([Some NUMBER_SINGULAR; Some CASE_GENITIVE; Some PERSON_THIRD; Some GENDER_MASCULINE], 15);
  ([Some NUMBER_SINGULAR; Some CASE_GENITIVE; Some PERSON_THIRD; Some GENDER_NEUTER], 16);
  ([Some NUMBER_SINGULAR; Some CASE_GENITIVE; Some PERSON_THIRD; Some GENDER_FEMININE], 17);
  ([Some NUMBER_SINGULAR; Some CASE_DATIVE; Some PERSON_FIRST; Some GENDER_MASCULINE], 18);
  ([Some NUMBER_SINGULAR; Some CASE_DATIVE; Some PERSON_FIRST; Some GENDER_NEUTER], 19);
  ([Some NUMBER_SINGULAR; Some CASE_DATIVE; Some PERSON_FIRST; Some GENDER_FEMININE], 20);
  ([Some NUMBER_SINGULAR; Some CASE_DATIVE; Some PERSON_SECOND; Some GENDER_MASCULINE], 21);
  ([Some NUMBER_SINGULAR; Some CASE_DATIVE; Some PERSON_SECOND; Some GENDER_NEUTER], 22);
  ([Some NUMBER_SINGULAR; Some CASE_DATIVE; Some PERSON_SECOND; Some GENDER_FEMININE], 23);
  ([Some NUMBER_SINGULAR; Some CASE_DATIVE; Some PERSON_THIRD; Some GENDER_MASCULINE], 24);
  ([Some NUMBER_SINGULAR; Some CASE_DATIVE; Some PERSON_THIRD; Some GENDER_NEUTER], 25);
  ([Some NUMBER_SINGULAR; Some CASE_DATIVE; Some PERSON_THIRD; Some GENDER_FEMININE], 26);
  ([Some NUMBER_SINGULAR; Some CASE_ACCUSATIVE; Some PERSON_FIRST; Some GENDER_MASCULINE], 27);
  ([Some NUMBER_SINGULAR; Some CASE_ACCUSATIVE; Some PERSON_FIRST; Some GENDER_NEUTER], 28);
  ([Some NUMBER_SINGULAR; Some CASE_ACCUSATIVE; Some PERSON_FIRST; Some GENDER_FEMININE], 29);
  ([Some NUMBER_SINGULAR; Some CASE_ACCUSATIVE; Some PERSON_SECOND; Some GENDER_MASCULINE], 30);
  ([Some NUMBER_SINGULAR; Some CASE_ACCUSATIVE; Some PERSON_SECOND; Some GENDER_NEUTER], 31);
  ([Some NUMBER_SINGULAR; Some CASE_ACCUSATIVE; Some PERSON_SECOND; Some GENDER_FEMININE], 32);
  ([Some NUMBER_SINGULAR; Some CASE_ACCUSATIVE; Some PERSON_THIRD; Some GENDER_MASCULINE], 33);
  ([Some NUMBER_SINGULAR; Some CASE_ACCUSATIVE; Some PERSON_THIRD; Some GENDER_NEUTER], 34);
  ([Some NUMBER_SINGULAR; Some CASE_ACCUSATIVE; Some PERSON_THIRD; Some GENDER_FEMININE], 35);
  ([Some NUMBER_SINGULAR; Some CASE_INSTRUMENTAL; Some PERSON_FIRST; Some GENDER_MASCULINE], 36);
  ([Some NUMBER_SINGULAR; Some CASE_INSTRUMENTAL; Some PERSON_FIRST; Some GENDER_NEUTER], 37);
  ([Some NUMBER_SINGULAR; Some CASE_INSTRUMENTAL; Some PERSON_FIRST; Some GENDER_FEMININE], 38);
  ([Some NUMBER_SINGULAR; Some CASE_INSTRUMENTAL; Some PERSON_SECOND; Some GENDER_MASCULINE], 39);
  ([Some NUMBER_SINGULAR; Some CASE_INSTRUMENTAL; Some PERSON_SECOND; Some GENDER_NEUTER], 40);
  ([Some NUMBER_SINGULAR; Some CASE_INSTRUMENTAL; Some PERSON_SECOND; Some GENDER_FEMININE], 41);
  ([Some NUMBER_SINGULAR; Some CASE_INSTRUMENTAL; Some PERSON_THIRD; Some GENDER_MASCULINE], 42);
  ([Some NUMBER_SINGULAR; Some CASE_INSTRUMENTAL; Some PERSON_THIRD; Some GENDER_NEUTER], 43);
  ([Some NUMBER_SINGULAR; Some CASE_INSTRUMENTAL; Some PERSON_THIRD; Some GENDER_FEMININE], 44);
  ([Some NUMBER_SINGULAR; Some CASE_PREPOSITIONAL; Some PERSON_FIRST; Some GENDER_MASCULINE], 45);
  ([Some NUMBER_SINGULAR; Some CASE_PREPOSITIONAL; Some PERSON_FIRST; Some GENDER_NEUTER], 46);
  ([Some NUMBER_SINGULAR; Some CASE_PREPOSITIONAL; Some PERSON_FIRST; Some GENDER_FEMININE], 47);
  ([Some NUMBER_SINGULAR; Some CASE_PREPOSITIONAL; Some PERSON_SECOND; Some GENDER_MASCULINE], 48);
  ([Some NUMBER_SINGULAR; Some CASE_PREPOSITIONAL; Some PERSON_SECOND; Some GENDER_NEUTER], 49);
  ([Some NUMBER_SINGULAR; Some CASE_PREPOSITIONAL; Some PERSON_SECOND; Some GENDER_FEMININE], 50);
  ([Some NUMBER_SINGULAR; Some CASE_PREPOSITIONAL; Some PERSON_THIRD; Some GENDER_MASCULINE], 51);
  ([Some NUMBER_SINGULAR; Some CASE_PREPOSITIONAL; Some PERSON_THIRD; Some GENDER_NEUTER], 52);
  ([Some NUMBER_SINGULAR; Some CASE_PREPOSITIONAL; Some PERSON_THIRD; Some GENDER_FEMININE], 53);
  ([Some NUMBER_PLURAL; Some CASE_NOMINATIVE; Some PERSON_FIRST; None], 54);
  ([Some NUMBER_PLURAL; Some CASE_NOMINATIVE; Some PERSON_SECOND; None], 55);
  ([Some NUMBER_PLURAL; Some CASE_NOMINATIVE; Some PERSON_THIRD; None], 56);
  ([Some NUMBER_PLURAL; Some CASE_GENITIVE; Some PERSON_FIRST; None], 57);
  ([Some NUMBER_PLURAL; Some CASE_GENITIVE; Some PERSON_SECOND; None], 58);
  ([Some NUMBER_PLURAL; Some CASE_GENITIVE; Some PERSON_THIRD; None], 59);
  ([Some NUMBER_PLURAL; Some CASE_DATIVE; Some PERSON_FIRST; None], 60);
  ([Some NUMBER_PLURAL; Some CASE_DATIVE; Some PERSON_SECOND; None], 61);
  ([Some NUMBER_PLURAL; Some CASE_DATIVE; Some PERSON_THIRD; None], 62);
  ([Some NUMBER_PLURAL; Some CASE_ACCUSATIVE; Some PERSON_FIRST; None], 63);
  ([Some NUMBER_PLURAL; Some CASE_ACCUSATIVE; Some PERSON_SECOND; None], 64);
  ([Some NUMBER_PLURAL; Some CASE_ACCUSATIVE; Some PERSON_THIRD; None], 65);
  ([Some NUMBER_PLURAL; Some CASE_INSTRUMENTAL; Some PERSON_FIRST; None], 66);
  ([Some NUMBER_PLURAL; Some CASE_INSTRUMENTAL; Some PERSON_SECOND; None], 67);
  ([Some NUMBER_PLURAL; Some CASE_INSTRUMENTAL; Some PERSON_THIRD; None], 68);
  ([Some NUMBER_PLURAL; Some CASE_PREPOSITIONAL; Some PERSON_FIRST; None], 69);
  ([Some NUMBER_PLURAL; Some CASE_PREPOSITIONAL; Some PERSON_SECOND; None], 70);
  ([Some NUMBER_PLURAL; Some CASE_PREPOSITIONAL; Some PERSON_THIRD; None], 71)
].

(** utg/migrations/m_0007_reduce_words_forms.py:267-293 *)
Definition m7_OLD_CACHES_VERB : dict key nat := dict_literal [
  ([Some VERB_FORM_INFINITIVE; None; None; None; None], 0);
  ([Some VERB_FORM_INDICATIVE; Some TIME_PAST; Some NUMBER_SINGULAR; None; Some GENDER_MASCULINE], 1);
  ([Some VERB_FORM_INDICATIVE; Some TIME_PAST; Some NUMBER_SINGULAR; None; Some GENDER_NEUTER], 2);
  ([Some VERB_FORM_INDICATIVE; Some TIME_PAST; Some NUMBER_SINGULAR; None; Some GENDER_FEMININE], 3);
  ([Some VERB_FORM_INDICATIVE; Some TIME_PAST; Some NUMBER_PLURAL; None; None], 4);
  ([Some VERB_FORM_INDICATIVE; Some TIME_PRESENT; Some NUMBER_SINGULAR; Some PERSON_FIRST; None], 5);
  ([Some VERB_FORM_INDICATIVE; Some TIME_PRESENT; Some NUMBER_SINGULAR; Some PERSON_SECOND; None], 6);
  ([Some VERB_FORM_INDICATIVE; Some TIME_PRESENT; Some NUMBER_SINGULAR; Some PERSON_THIRD; None], 7);
  ([Some VERB_FORM_INDICATIVE; Some TIME_PRESENT; Some NUMBER_PLURAL; Some PERSON_FIRST; None], 8);
  ([Some VERB_FORM_INDICATIVE; Some TIME_PRESENT; Some NUMBER_PLURAL; Some PERSON_SECOND; None], 9);
  ([Some VERB_FORM_INDICATIVE; Some TIME_PRESENT; Some NUMBER_PLURAL; Some PERSON_THIRD; None], 10);
  ([Some VERB_FORM_INDICATIVE; Some TIME_FUTURE; Some NUMBER_SINGULAR; Some PERSON_FIRST; None], 11);
  ([Some VERB_FORM_INDICATIVE; Some TIME_FUTURE; Some NUMBER_SINGULAR; Some PERSON_SECOND; None], 12);
  ([Some VERB_FORM_INDICATIVE; Some TIME_FUTURE; Some NUMBER_SINGULAR; Some PERSON_THIRD; None], 13);
  ([Some VERB_FORM_INDICATIVE; Some TIME_FUTURE; Some NUMBER_PLURAL; Some PERSON_FIRST; None], 14);
  ([Some VERB_FORM_INDICATIVE; Some TIME_FUTURE; Some NUMBER_PLURAL; Some PERSON_SECOND; None], 15);
  ([Some VERB_FORM_INDICATIVE; Some TIME_FUTURE; Some NUMBER_PLURAL; Some PERSON_THIRD; None], 16);
  ([Some VERB_FORM_IMPERATIVE; None; Some NUMBER_SINGULAR; Some PERSON_FIRST; None], 21);
  ([Some VERB_FORM_IMPERATIVE; None; Some NUMBER_SINGULAR; Some PERSON_SECOND; None], 22);
  ([Some VERB_FORM_IMPERATIVE; None; Some NUMBER_SINGULAR; Some PERSON_THIRD; None], 23);
  ([Some VERB_FORM_IMPERATIVE; None; Some NUMBER_PLURAL; Some PERSON_FIRST; None], 24);
  ([Some VERB_FORM_IMPERATIVE; None; Some NUMBER_PLURAL; Some PERSON_SECOND; None], 25);
  ([Some VERB_FORM_IMPERATIVE; None; Some NUMBER_PLURAL; Some PERSON_THIRD; None], 26)
].

(** utg/migrations/m_0007_reduce_words_forms.py:294-585 *)
Definition m7_OLD_CACHES_PARTICIPLE : dict key nat := dict_literal [
  ([Some PARTICIPLE_FORM_FULL; Some TIME_PAST; Some NUMBER_SINGULAR; Some CASE_NOMINATIVE; Some GENDER_MASCULINE; Some ANIMALITY_ANIMATE], 0);
  ([Some PARTICIPLE_FORM_FULL; Some TIME_PAST; Some NUMBER_SINGULAR; Some CASE_NOMINATIVE; Some GENDER_MASCULINE; Some ANIMALITY_INANIMATE], 1);
  ([Some PARTICIPLE_FORM_FULL; Some TIME_PAST; Some NUMBER_SINGULAR; Some CASE_NOMINATIVE; Some GENDER_NEUTER; Some ANIMALITY_ANIMATE], 2);
  ([Some PARTICIPLE_FORM_FULL; Some TIME_PAST; Some NUMBER_SINGULAR; Some CASE_NOMINATIVE; Some GENDER_NEUTER; Some ANIMALITY_INANIMATE], 3);
  ([Some PARTICIPLE_FORM_FULL; Some TIME_PAST; Some NUMBER_SINGULAR; Some CASE_NOMINATIVE; Some GENDER_FEMININE; Some ANIMALITY_ANIMATE], 4);
  ([Some PARTICIPLE_FORM_FULL; Some TIME_PAST; Some NUMBER_SINGULAR; Some CASE_NOMINATIVE; Some GENDER_FEMININE; Some ANIMALITY_INANIMATE], 5);
  ([Some PARTICIPLE_FORM_FULL; Some TIME_PAST; Some NUMBER_SINGULAR; Some CASE_GENITIVE; Some GENDER_MASCULINE; Some ANIMALITY_ANIMATE], 6);
  ([Some PARTICIPLE_FORM_FULL; Some TIME_PAST; Some NUMBER_SINGULAR; Some CASE_GENITIVE; Some GENDER_MASCULINE; Some ANIMALITY_INANIMATE], 7);
  ([Some PARTICIPLE_FORM_FULL; Some TIME_PAST; Some NUMBER_SINGULAR; Some CASE_GENITIVE; Some GENDER_NEUTER; Some ANIMALITY_ANIMATE], 8);
  ([Some PARTICIPLE_FORM_FULL; Some TIME_PAST; Some NUMBER_SINGULAR; Some CASE_GENITIVE; Some GENDER_NEUTER; Some ANIMALITY_INANIMATE], 9);
  ([Some PARTICIPLE_FORM_FULL; Some TIME_PAST; Some NUMBER_SINGULAR; Some CASE_GENITIVE; Some GENDER_FEMININE; Some ANIMALITY_ANIMATE], 10);
  ([Some PARTICIPLE_FORM_FULL; Some TIME_PAST; Some NUMBER_SINGULAR; Some CASE_GENITIVE; Some GENDER_FEMININE; Some ANIMALITY_INANIMATE], 11);
  ([Some PARTICIPLE_FORM_FULL; Some TIME_PAST; Some NUMBER_SINGULAR; Some CASE_DATIVE; Some GENDER_MASCULINE; Some ANIMALITY_ANIMATE], 12);
  ([Some PARTICIPLE_FORM_FULL; Some TIME_PAST; Some NUMBER_SINGULAR; Some CASE_DATIVE; Some GENDER_MASCULINE; Some ANIMALITY_INANIMATE], 13);
  ([Some PARTICIPLE_FORM_FULL; Some TIME_PAST; Some NUMBER_SINGULAR; Some CASE_DATIVE; Some GENDER_NEUTER; Some ANIMALITY_ANIMATE], 14);
  ([Some PARTICIPLE_FORM_FULL; Some TIME_PAST; Some NUMBER_SINGULAR; Some CASE_DATIVE; Some GENDER_NEUTER; Some ANIMALITY_INANIMATE], 15);
  ([Some PARTICIPLE_FORM_FULL; Some TIME_PAST; Some NUMBER_SINGULAR; Some CASE_DATIVE; Some GENDER_FEMININE; Some ANIMALITY_ANIMATE], 16);
  ([Some PARTICIPLE_FORM_FULL; Some TIME_PAST; Some NUMBER_SINGULAR; Some CASE_DATIVE; Some GENDER_FEMININE; Some ANIMALITY_INANIMATE], 17);
  ([Some PARTICIPLE_FORM_FULL; Some TIME_PAST; Some NUMBER_SINGULAR; Some CASE_ACCUSATIVE; Some GENDER_MASCULINE; Some ANIMALITY_ANIMATE], 18);
  ([Some PARTICIPLE_FORM_FULL; Some TIME_PAST; Some NUMBER_SINGULAR; Some CASE_ACCUSATIVE; Some GENDER_MASCULINE; Some ANIMALITY_INANIMATE], 19);
  ([Some PARTICIPLE_FORM_FULL; Some TIME_PAST; Some NUMBER_SINGULAR; Some CASE_ACCUSATIVE; Some GENDER_NEUTER; Some ANIMALITY_ANIMATE], 20);
  ([Some PARTICIPLE_FORM_FULL; Some TIME_PAST; Some NUMBER_SINGULAR; Some CASE_ACCUSATIVE; Some GENDER_NEUTER; Some ANIMALITY_INANIMATE], 21);
  ([Some PARTICIPLE_FORM_FULL; Some TIME_PAST; Some NUMBER_SINGULAR; Some CASE_ACCUSATIVE; Some GENDER_FEMININE; Some ANIMALITY_ANIMATE], 22);
  ([Some PARTICIPLE_FORM_FULL; Some TIME_PAST; Some NUMBER_SINGULAR; Some CASE_ACCUSATIVE; Some GENDER_FEMININE; Some ANIMALITY_INANIMATE], 23);
  ([Some PARTICIPLE_FORM_FULL; Some TIME_PAST; Some NUMBER_SINGULAR; Some CASE_INSTRUMENTAL; Some GENDER_MASCULINE; Some ANIMALITY_ANIMATE], 24);
  ([Some PARTICIPLE_FORM_FULL; Some TIME_PAST; Some NUMBER_SINGULAR; Some CASE_INSTRUMENTAL; Some GENDER_MASCULINE; Some ANIMALITY_INANIMATE], 25);
  ([Some PARTICIPLE_FORM_FULL; Some TIME_PAST; Some NUMBER_SINGULAR; Some CASE_INSTRUMENTAL; Some GENDER_NEUTER; Some ANIMALITY_ANIMATE], 26);
  ([Some PARTICIPLE_FORM_FULL; Some TIME_PAST; Some NUMBER_SINGULAR; Some CASE_INSTRUMENTAL; Some GENDER_NEUTER; Some ANIMALITY_INANIMATE], 27);
  ([Some PARTICIPLE_FORM_FULL; Some TIME_PAST; Some NUMBER_SINGULAR; Some CASE_INSTRUMENTAL; Some GENDER_FEMININE; Some ANIMALITY_ANIMATE], 28);
  ([Some PARTICIPLE_FORM_FULL; Some TIME_PAST; Some NUMBER_SINGULAR; Some CASE_INSTRUMENTAL; Some GENDER_FEMININE; Some ANIMALITY_INANIMATE], 29);
  ([Some PARTICIPLE_FORM_FULL; Some TIME_PAST; Some NUMBER_SINGULAR; Some CASE_PREPOSITIONAL; Some GENDER_MASCULINE; Some ANIMALITY_ANIMATE], 30);
  ([Some PARTICIPLE_FORM_FULL; Some TIME_PAST; Some NUMBER_SINGULAR; Some CASE_PREPOSITIONAL; Some GENDER_MASCULINE; Some ANIMALITY_INANIMATE], 31);
  ([Some PARTICIPLE_FORM_FULL; Some TIME_PAST; Some NUMBER_SINGULAR; Some CASE_PREPOSITIONAL; Some GENDER_NEUTER; Some ANIMALITY_ANIMATE], 32);
  ([Some PARTICIPLE_FORM_FULL; Some TIME_PAST; Some NUMBER_SINGULAR; Some CASE_PREPOSITIONAL; Some GENDER_NEUTER; Some ANIMALITY_INANIMATE], 33);
  ([Some PARTICIPLE_FORM_FULL; Some TIME_PAST; Some NUMBER_SINGULAR; Some CASE_PREPOSITIONAL; Some GENDER_FEMININE; Some ANIMALITY_ANIMATE], 34);
  ([Some PARTICIPLE_FORM_FULL; Some TIME_PAST; Some NUMBER_SINGULAR; Some CASE_PREPOSITIONAL; Some GENDER_FEMININE; Some ANIMALITY_INANIMATE], 35);
  ([Some PARTICIPLE_FORM_FULL; Some TIME_PAST; Some NUMBER_PLURAL; Some CASE_NOMINATIVE; None; Some ANIMALITY_ANIMATE], 36);
  ([Some PARTICIPLE_FORM_FULL; Some TIME_PAST; Some NUMBER_PLURAL; Some CASE_NOMINATIVE; None; Some ANIMALITY_INANIMATE], 37);
  ([Some PARTICIPLE_FORM_FULL; Some TIME_PAST; Some NUMBER_PLURAL; Some CASE_GENITIVE; None; Some ANIMALITY_ANIMATE], 38);
  ([Some PARTICIPLE_FORM_FULL; Some TIME_PAST; Some NUMBER_PLURAL; Some CASE_GENITIVE; None; Some ANIMALITY_INANIMATE], 39);
  ([Some PARTICIPLE_FORM_FULL; Some TIME_PAST; Some NUMBER_PLURAL; Some CASE_DATIVE; None; Some ANIMALITY_ANIMATE], 40);
  ([Some PARTICIPLE_FORM_FULL; Some TIME_PAST; Some NUMBER_PLURAL; Some CASE_DATIVE; None; Some ANIMALITY_INANIMATE], 41);
  ([Some PARTICIPLE_FORM_FULL; Some TIME_PAST; Some NUMBER_PLURAL; Some CASE_ACCUSATIVE; None; Some ANIMALITY_ANIMATE], 42);
  ([Some PARTICIPLE_FORM_FULL; Some TIME_PAST; Some NUMBER_PLURAL; Some CASE_ACCUSATIVE; None; Some ANIMALITY_INANIMATE], 43);
  ([Some PARTICIPLE_FORM_FULL; Some TIME_PAST; Some NUMBER_PLURAL; Some CASE_INSTRUMENTAL; None; Some ANIMALITY_ANIMATE], 44);
  ([Some PARTICIPLE_FORM_FULL; Some TIME_PAST; Some NUMBER_PLURAL; Some CASE_INSTRUMENTAL; None; Some ANIMALITY_INANIMATE], 45);
  ([Some PARTICIPLE_FORM_FULL; Some TIME_PAST; Some NUMBER_PLURAL; Some CASE_PREPOSITIONAL; None; Some ANIMALITY_ANIMATE], 46);
  ([Some PARTICIPLE_FORM_FULL; Some TIME_PAST; Some NUMBER_PLURAL; Some CASE_PREPOSITIONAL; None; Some ANIMALITY_INANIMATE], 47);
  ([Some PARTICIPLE_FORM_FULL; Some TIME_PAST; Some NUMBER_SINGULAR; Some CASE_NOMINATIVE; Some GENDER_MASCULINE; Some ANIMALITY_ANIMATE], 48);
  ([Some PARTICIPLE_FORM_FULL; Some TIME_PAST; Some NUMBER_SINGULAR; Some CASE_NOMINATIVE; Some GENDER_MASCULINE; Some ANIMALITY_INANIMATE], 49);
  ([Some PARTICIPLE_FORM_FULL; Some TIME_PAST; Some NUMBER_SINGULAR; Some CASE_NOMINATIVE; Some GENDER_NEUTER; Some ANIMALITY_ANIMATE], 50);
  ([Some PARTICIPLE_FORM_FULL; Some TIME_PAST; Some NUMBER_SINGULAR; Some CASE_NOMINATIVE; Some GENDER_NEUTER; Some ANIMALITY_INANIMATE], 51);
  ([Some PARTICIPLE_FORM_FULL; Some TIME_PAST; Some NUMBER_SINGULAR; Some CASE_NOMINATIVE; Some GENDER_FEMININE; Some ANIMALITY_ANIMATE], 52);
  ([Some PARTICIPLE_FORM_FULL; Some TIME_PAST; Some NUMBER_SINGULAR; Some CASE_NOMINATIVE; Some GENDER_FEMININE; Some ANIMALITY_INANIMATE], 53);
  ([Some PARTICIPLE_FORM_FULL; Some TIME_PAST; Some NUMBER_SINGULAR; Some CASE_GENITIVE; Some GENDER_MASCULINE; Some ANIMALITY_ANIMATE], 54);
  ([Some PARTICIPLE_FORM_FULL; Some TIME_PAST; Some NUMBER_SINGULAR; Some CASE_GENITIVE; Some GENDER_MASCULINE; Some ANIMALITY_INANIMATE], 55);
  ([Some PARTICIPLE_FORM_FULL; Some TIME_PAST; Some NUMBER_SINGULAR; Some CASE_GENITIVE; Some GENDER_NEUTER; Some ANIMALITY_ANIMATE], 56);
  ([Some PARTICIPLE_FORM_FULL; Some TIME_PAST; Some NUMBER_SINGULAR; Some CASE_GENITIVE; Some GENDER_NEUTER; Some ANIMALITY_INANIMATE], 57);
  ([Some PARTICIPLE_FORM_FULL; Some TIME_PAST; Some NUMBER_SINGULAR; Some CASE_GENITIVE; Some GENDER_FEMININE; Some ANIMALITY_ANIMATE], 58);
  ([Some PARTICIPLE_FORM_FULL; Some TIME_PAST; Some NUMBER_SINGULAR; Some CASE_GENITIVE; Some GENDER_FEMININE; Some ANIMALITY_INANIMATE], 59);
  ([Some PARTICIPLE_FORM_FULL; Some TIME_PAST; Some NUMBER_SINGULAR; Some CASE_DATIVE; Some GENDER_MASCULINE; Some ANIMALITY_ANIMATE], 60);
  ([Some PARTICIPLE_FORM_FULL; Some TIME_PAST; Some NUMBER_SINGULAR; Some CASE_DATIVE; Some GENDER_MASCULINE; Some ANIMALITY_INANIMATE], 61);
  ([Some PARTICIPLE_FORM_FULL; Some TIME_PAST; Some NUMBER_SINGULAR; Some CASE_DATIVE; Some GENDER_NEUTER; Some ANIMALITY_ANIMATE], 62);
  ([Some PARTICIPLE_FORM_FULL; Some TIME_PAST; Some NUMBER_SINGULAR; Some CASE_DATIVE; Some GENDER_NEUTER; Some ANIMALITY_INANIMATE], 63);
  ([Some PARTICIPLE_FORM_FULL; Some TIME_PAST; Some NUMBER_SINGULAR; Some CASE_DATIVE; Some GENDER_FEMININE; Some ANIMALITY_ANIMATE], 64);
  ([Some PARTICIPLE_FORM_FULL; Some TIME_PAST; Some NUMBER_SINGULAR; Some CASE_DATIVE; Some GENDER_FEMININE; Some ANIMALITY_INANIMATE], 65);
  ([Some PARTICIPLE_FORM_FULL; Some TIME_PAST; Some NUMBER_SINGULAR; Some CASE_ACCUSATIVE; Some GENDER_MASCULINE; Some ANIMALITY_ANIMATE], 66);
  ([Some PARTICIPLE_FORM_FULL; Some TIME_PAST; Some NUMBER_SINGULAR; Some CASE_ACCUSATIVE; Some GENDER_MASCULINE; Some ANIMALITY_INANIMATE], 67);
  ([Some PARTICIPLE_FORM_FULL; Some TIME_PAST; Some NUMBER_SINGULAR; Some CASE_ACCUSATIVE; Some GENDER_NEUTER; Some ANIMALITY_ANIMATE], 68);
  ([Some PARTICIPLE_FORM_FULL; Some TIME_PAST; Some NUMBER_SINGULAR; Some CASE_ACCUSATIVE; Some GENDER_NEUTER; Some ANIMALITY_INANIMATE], 69);
  ([Some PARTICIPLE_FORM_FULL; Some TIME_PAST; Some NUMBER_SINGULAR; Some CASE_ACCUSATIVE; Some GENDER_FEMININE; Some ANIMALITY_ANIMATE], 70);
  ([Some PARTICIPLE_FORM_FULL; Some TIME_PAST; Some NUMBER_SINGULAR; Some CASE_ACCUSATIVE; Some GENDER_FEMININE; Some ANIMALITY_INANIMATE], 71);
  ([Some PARTICIPLE_FORM_FULL; Some TIME_PAST; Some NUMBER_SINGULAR; Some CASE_INSTRUMENTAL; Some GENDER_MASCULINE; Some ANIMALITY_ANIMATE], 72);
  ([Some PARTICIPLE_FORM_FULL; Some TIME_PAST; Some NUMBER_SINGULAR; Some CASE_INSTRUMENTAL; Some GENDER_MASCULINE; Some ANIMALITY_INANIMATE], 73);
  ([Some PARTICIPLE_FORM_FULL; Some TIME_PAST; Some NUMBER_SINGULAR; Some CASE_INSTRUMENTAL; Some GENDER_NEUTER; Some ANIMALITY_ANIMATE], 74);
  ([Some PARTICIPLE_FORM_FULL; Some TIME_PAST; Some NUMBER_SINGULAR; Some CASE_INSTRUMENTAL; Some GENDER_NEUTER; Some ANIMALITY_INANIMATE], 75);
  ([Some PARTICIPLE_FORM_FULL; Some TIME_PAST; Some NUMBER_SINGULAR; Some CASE_INSTRUMENTAL; Some GENDER_FEMININE; Some ANIMALITY_ANIMATE], 76);
  ([Some PARTICIPLE_FORM_FULL; Some TIME_PAST; Some NUMBER_SINGULAR; Some CASE_INSTRUMENTAL; Some GENDER_FEMININE; Some ANIMALITY_INANIMATE], 77);
  ([Some PARTICIPLE_FORM_FULL; Some TIME_PAST; Some NUMBER_SINGULAR; Some CASE_PREPOSITIONAL; Some GENDER_MASCULINE; Some ANIMALITY_ANIMATE], 78);
  ([Some PARTICIPLE_FORM_FULL; Some TIME_PAST; Some NUMBER_SINGULAR; Some CASE_PREPOSITIONAL; Some GENDER_MASCULINE; Some ANIMALITY_INANIMATE], 79);
  ([Some PARTICIPLE_FORM_FULL; Some TIME_PAST; Some NUMBER_SINGULAR; Some CASE_PREPOSITIONAL; Some GENDER_NEUTER; Some ANIMALITY_ANIMATE], 80);
  ([Some PARTICIPLE_FORM_FULL; Some TIME_PAST; Some NUMBER_SINGULAR; Some CASE_PREPOSITIONAL; Some GENDER_NEUTER; Some ANIMALITY_INANIMATE], 81);
  ([Some PARTICIPLE_FORM_FULL; Some TIME_PAST; Some NUMBER_SINGULAR; Some CASE_PREPOSITIONAL; Some GENDER_FEMININE; Some ANIMALITY_ANIMATE], 82);
  ([Some PARTICIPLE_FORM_FULL; Some TIME_PAST; Some NUMBER_SINGULAR; Some CASE_PREPOSITIONAL; Some GENDER_FEMININE; Some ANIMALITY_INANIMATE], 83);
  ([Some PARTICIPLE_FORM_FULL; Some TIME_PAST; Some NUMBER_PLURAL; Some CASE_NOMINATIVE; None; Some ANIMALITY_ANIMATE], 84);
  ([Some PARTICIPLE_FORM_FULL; Some TIME_PAST; Some NUMBER_PLURAL; Some CASE_NOMINATIVE; None; Some ANIMALITY_INANIMATE], 85);
  ([Some PARTICIPLE_FORM_FULL; Some TIME_PAST; Some NUMBER_PLURAL; Some CASE_GENITIVE; None; Some ANIMALITY_ANIMATE], 86);
  ([Some PARTICIPLE_FORM_FULL; Some TIME_PAST; Some NUMBER_PLURAL; Some CASE_GENITIVE; None; Some ANIMALITY_INANIMATE], 87);
  ([Some PARTICIPLE_FORM_FULL; Some TIME_PAST; Some NUMBER_PLURAL; Some CASE_DATIVE; None; Some ANIMALITY_ANIMATE], 88);
  ([Some PARTICIPLE_FORM_FULL; Some TIME_PAST; Some NUMBER_PLURAL; Some CASE_DATIVE; None; Some ANIMALITY_INANIMATE], 89);
  ([Some PARTICIPLE_FORM_FULL; Some TIME_PAST; Some NUMBER_PLURAL; Some CASE_ACCUSATIVE; None; Some ANIMALITY_ANIMATE], 90);
  ([Some PARTICIPLE_FORM_FULL; Some TIME_PAST; Some NUMBER_PLURAL; Some CASE_ACCUSATIVE; None; Some ANIMALITY_INANIMATE], 91);
  ([Some PARTICIPLE_FORM_FULL; Some TIME_PAST; Some NUMBER_PLURAL; Some CASE_INSTRUMENTAL; None; Some ANIMALITY_ANIMATE], 92);
  ([Some PARTICIPLE_FORM_FULL; Some TIME_PAST; Some NUMBER_PLURAL; Some CASE_INSTRUMENTAL; None; Some ANIMALITY_INANIMATE], 93);
  ([Some PARTICIPLE_FORM_FULL; Some TIME_PAST; Some NUMBER_PLURAL; Some CASE_PREPOSITIONAL; None; Some ANIMALITY_ANIMATE], 94);
  ([Some PARTICIPLE_FORM_FULL; Some TIME_PAST; Some NUMBER_PLURAL; Some CASE_PREPOSITIONAL; None; Some ANIMALITY_INANIMATE], 95);
  ([Some PARTICIPLE_FORM_FULL; Some TIME_PRESENT; Some NUMBER_SINGULAR; Some CASE_NOMINATIVE; Some GENDER_MASCULINE; Some ANIMALITY_ANIMATE], 96);
  ([Some PARTICIPLE_FORM_FULL; Some TIME_PRESENT; Some NUMBER_SINGULAR; Some CASE_NOMINATIVE; Some GENDER_MASCULINE; Some ANIMALITY_INANIMATE], 97);
  ([Some PARTICIPLE_FORM_FULL; Some TIME_PRESENT; Some NUMBER_SINGULAR; Some CASE_NOMINATIVE; Some GENDER_NEUTER; Some ANIMALITY_ANIMATE], 98);
  ([Some PARTICIPLE_FORM_FULL; Some TIME_PRESENT; Some NUMBER_SINGULAR; Some CASE_NOMINATIVE; Some GENDER_NEUTER; Some ANIMALITY_INANIMATE], 99);
  ([Some PARTICIPLE_FORM_FULL; Some TIME_PRESENT; Some NUMBER_SINGULAR; Some CASE_NOMINATIVE; Some GENDER_FEMININE; Some ANIMALITY_ANIMATE], 100);
  ([Some PARTICIPLE_FORM_FULL; Some TIME_PRESENT; Some NUMBER_SINGULAR; Some CASE_NOMINATIVE; Some GENDER_FEMININE; Some ANIMALITY_INANIMATE], 101);
  ([Some PARTICIPLE_FORM_FULL; Some TIME_PRESENT; Some NUMBER_SINGULAR; Some CASE_GENITIVE; Some GENDER_MASCULINE; Some ANIMALITY_ANIMATE], 102);
  ([Some PARTICIPLE_FORM_FULL; Some TIME_PRESENT; Some NUMBER_SINGULAR; Some CASE_GENITIVE; Some GENDER_MASCULINE; Some ANIMALITY_INANIMATE], 103);
  ([Some PARTICIPLE_FORM_FULL; Some TIME_PRESENT; Some NUMBER_SINGULAR; Some CASE_GENITIVE; Some GENDER_NEUTER; Some ANIMALITY_ANIMATE], 104);
  ([Some PARTICIPLE_FORM_FULL; Some TIME_PRESENT; Some NUMBER_SINGULAR; Some CASE_GENITIVE; Some GENDER_NEUTER; Some ANIMALITY_INANIMATE], 105);
  ([Some PARTICIPLE_FORM_FULL; Some TIME_PRESENT; Some NUMBER_SINGULAR; Some CASE_GENITIVE; Some GENDER_FEMININE; Some ANIMALITY_ANIMATE], 106);
  ([Some PARTICIPLE_FORM_FULL; Some TIME_PRESENT; Some NUMBER_SINGULAR; Some CASE_GENITIVE; Some GENDER_FEMININE; Some ANIMALITY_INANIMATE], 107);
  ([Some PARTICIPLE_FORM_FULL; Some TIME_PRESENT; Some NUMBER_SINGULAR; Some CASE_DATIVE; Some GENDER_MASCULINE; Some ANIMALITY_ANIMATE], 108);
  ([Some PARTICIPLE_FORM_FULL; Some TIME_PRESENT; Some NUMBER_SINGULAR; Some CASE_DATIVE; Some GENDER_MASCULINE; Some ANIMALITY_INANIMATE], 109);
  ([Some PARTICIPLE_FORM_FULL; Some TIME_PRESENT; Some NUMBER_SINGULAR; Some CASE_DATIVE; Some GENDER_NEUTER; Some ANIMALITY_ANIMATE], 110);
  ([Some PARTICIPLE_FORM_FULL; Some TIME_PRESENT; Some NUMBER_SINGULAR; Some CASE_DATIVE; Some GENDER_NEUTER; Some ANIMALITY_INANIMATE], 111);
  ([Some PARTICIPLE_FORM_FULL; Some TIME_PRESENT; Some NUMBER_SINGULAR; Some CASE_DATIVE; Some GENDER_FEMININE; Some ANIMALITY_ANIMATE], 112);
  ([Some PARTICIPLE_FORM_FULL; Some TIME_PRESENT; Some NUMBER_SINGULAR; Some CASE_DATIVE; Some GENDER_FEMININE; Some ANIMALITY_INANIMATE], 113);
  ([Some PARTICIPLE_FORM_FULL; Some TIME_PRESENT; Some NUMBER_SINGULAR; Some CASE_ACCUSATIVE; Some GENDER_MASCULINE; Some ANIMALITY_ANIMATE], 114);
  ([Some PARTICIPLE_FORM_FULL; Some TIME_PRESENT; Some NUMBER_SINGULAR; Some CASE_ACCUSATIVE; Some GENDER_MASCULINE; Some ANIMALITY_INANIMATE], 115);
  ([Some PARTICIPLE_FORM_FULL; Some TIME_PRESENT; Some NUMBER_SINGULAR; Some CASE_ACCUSATIVE; Some GENDER_NEUTER; Some ANIMALITY_ANIMATE], 116);
  ([Some PARTICIPLE_FORM_FULL; Some TIME_PRESENT; Some NUMBER_SINGULAR; Some CASE_ACCUSATIVE; Some GENDER_NEUTER; Some ANIMALITY_INANIMATE], 117);
  ([Some PARTICIPLE_FORM_FULL; Some TIME_PRESENT; Some NUMBER_SINGULAR; Some CASE_ACCUSATIVE; Some GENDER_FEMININE; Some ANIMALITY_ANIMATE], 118);
  ([Some PARTICIPLE_FORM_FULL; Some TIME_PRESENT; Some NUMBER_SINGULAR; Some CASE_ACCUSATIVE; Some GENDER_FEMININE; Some ANIMALITY_INANIMATE], 119);
  ([Some PARTICIPLE_FORM_FULL; Some TIME_PRESENT; Some NUMBER_SINGULAR; Some CASE_INSTRUMENTAL; Some GENDER_MASCULINE; Some ANIMALITY_ANIMATE], 120);
  ([Some PARTICIPLE_FORM_FULL; Some TIME_PRESENT; Some NUMBER_SINGULAR; Some CASE_INSTRUMENTAL; Some GENDER_MASCULINE; Some ANIMALITY_INANIMATE], 121);
  ([Some PARTICIPLE_FORM_FULL; Some TIME_PRESENT; Some NUMBER_SINGULAR; Some CASE_INSTRUMENTAL; Some GENDER_NEUTER; Some ANIMALITY_ANIMATE], 122);
  ([Some PARTICIPLE_FORM_FULL; Some TIME_PRESENT; Some NUMBER_SINGULAR; Some CASE_INSTRUMENTAL; Some GENDER_NEUTER; Some ANIMALITY_INANIMATE], 123);
  ([Some PARTICIPLE_FORM_FULL; Some TIME_PRESENT; Some NUMBER_SINGULAR; Some CASE_INSTRUMENTAL; Some GENDER_FEMININE; Some ANIMALITY_ANIMATE], 124);
  ([Some PARTICIPLE_FORM_FULL; Some TIME_PRESENT; Some NUMBER_SINGULAR; Some CASE_INSTRUMENTAL; Some GENDER_FEMININE; Some ANIMALITY_INANIMATE], 125);
  ([Some PARTICIPLE_FORM_FULL; Some TIME_PRESENT; Some NUMBER_SINGULAR; Some CASE_PREPOSITIONAL; Some GENDER_MASCULINE; Some ANIMALITY_ANIMATE], 126);
  ([Some PARTICIPLE_FORM_FULL; Some TIME_PRESENT; Some NUMBER_SINGULAR; Some CASE_PREPOSITIONAL; Some GENDER_MASCULINE; Some ANIMALITY_INANIMATE], 127);
  ([Some PARTICIPLE_FORM_FULL; Some TIME_PRESENT; Some NUMBER_SINGULAR; Some CASE_PREPOSITIONAL; Some GENDER_NEUTER; Some ANIMALITY_ANIMATE], 128);
  ([Some PARTICIPLE_FORM_FULL; Some TIME_PRESENT; Some NUMBER_SINGULAR; Some CASE_PREPOSITIONAL; Some GENDER_NEUTER; Some ANIMALITY_INANIMATE], 129);
  ([Some PARTICIPLE_FORM_FULL; Some TIME_PRESENT; Some NUMBER_SINGULAR; Some CASE_PREPOSITIONAL; Some GENDER_FEMININE; Some ANIMALITY_ANIMATE], 130);
  ([Some PARTICIPLE_FORM_FULL; Some TIME_PRESENT; Some NUMBER_SINGULAR; Some CASE_PREPOSITIONAL; Some GENDER_FEMININE; Some ANIMALITY_INANIMATE], 131);
  ([Some PARTICIPLE_FORM_FULL; Some TIME_PRESENT; Some NUMBER_PLURAL; Some CASE_NOMINATIVE; None; Some ANIMALITY_ANIMATE], 132);
  ([Some PARTICIPLE_FORM_FULL; Some TIME_PRESENT; Some NUMBER_PLURAL; Some CASE_NOMINATIVE; None; Some ANIMALITY_INANIMATE], 133);
  ([Some PARTICIPLE_FORM_FULL; Some TIME_PRESENT; Some NUMBER_PLURAL; Some CASE_GENITIVE; None; Some ANIMALITY_ANIMATE], 134);
  ([Some PARTICIPLE_FORM_FULL; Some TIME_PRESENT; Some NUMBER_PLURAL; Some CASE_GENITIVE; None; Some ANIMALITY_INANIMATE], 135);
  ([Some PARTICIPLE_FORM_FULL; Some TIME_PRESENT; Some NUMBER_PLURAL; Some CASE_DATIVE; None; Some ANIMALITY_ANIMATE], 136);
  ([Some PARTICIPLE_FORM_FULL; Some TIME_PRESENT; Some NUMBER_PLURAL; Some CASE_DATIVE; None; Some ANIMALITY_INANIMATE], 137);
  ([Some PARTICIPLE_FORM_FULL; Some TIME_PRESENT; Some NUMBER_PLURAL; Some CASE_ACCUSATIVE; None; Some ANIMALITY_ANIMATE], 138);
  ([Some PARTICIPLE_FORM_FULL; Some TIME_PRESENT; Some NUMBER_PLURAL; Some CASE_ACCUSATIVE; None; Some ANIMALITY_INANIMATE], 139);
  ([Some PARTICIPLE_FORM_FULL; Some TIME_PRESENT; Some NUMBER_PLURAL; Some CASE_INSTRUMENTAL; None; Some ANIMALITY_ANIMATE], 140);
  ([Some PARTICIPLE_FORM_FULL; Some TIME_PRESENT; Some NUMBER_PLURAL; Some CASE_INSTRUMENTAL; None; Some ANIMALITY_INANIMATE], 141);
  ([Some PARTICIPLE_FORM_FULL; Some TIME_PRESENT; Some NUMBER_PLURAL; Some CASE_PREPOSITIONAL; None; Some ANIMALITY_ANIMATE], 142);
  ([Some PARTICIPLE_FORM_FULL; Some TIME_PRESENT; Some NUMBER_PLURAL; Some CASE_PREPOSITIONAL; None; Some ANIMALITY_INANIMATE], 143);
  ([Some PARTICIPLE_FORM_FULL; Some TIME_PRESENT; Some NUMBER_SINGULAR; Some CASE_NOMINATIVE; Some GENDER_MASCULINE; Some ANIMALITY_ANIMATE], 144);
  ([Some PARTICIPLE_FORM_FULL; Some TIME_PRESENT; Some NUMBER_SINGULAR; Some CASE_NOMINATIVE; Some GENDER_MASCULINE; Some ANIMALITY_INANIMATE], 145);
  ([Some PARTICIPLE_FORM_FULL; Some TIME_PRESENT; Some NUMBER_SINGULAR; Some CASE_NOMINATIVE; Some GENDER_NEUTER; Some ANIMALITY_ANIMATE], 146);
  ([Some PARTICIPLE_FORM_FULL; Some TIME_PRESENT; Some NUMBER_SINGULAR; Some CASE_NOMINATIVE; Some GENDER_NEUTER; Some ANIMALITY_INANIMATE], 147);
  ([Some PARTICIPLE_FORM_FULL; Some TIME_PRESENT; Some NUMBER_SINGULAR; Some CASE_NOMINATIVE; Some GENDER_FEMININE; Some ANIMALITY_ANIMATE], 148);
  ([Some PARTICIPLE_FORM_FULL; Some TIME_PRESENT; Some NUMBER_SINGULAR; Some CASE_NOMINATIVE; Some GENDER_FEMININE; Some ANIMALITY_INANIMATE], 149);
  ([Some PARTICIPLE_FORM_FULL; Some TIME_PRESENT; Some NUMBER_SINGULAR; Some CASE_GENITIVE; Some GENDER_MASCULINE; Some ANIMALITY_ANIMATE], 150);
  ([Some PARTICIPLE_FORM_FULL; Some TIME_PRESENT; Some NUMBER_SINGULAR; Some CASE_GENITIVE; Some GENDER_MASCULINE; Some ANIMALITY_INANIMATE], 151);
  ([Some PARTICIPLE_FORM_FULL; Some TIME_PRESENT; Some NUMBER_SINGULAR; Some CASE_GENITIVE; Some GENDER_NEUTER; Some ANIMALITY_ANIMATE], 152);
  ([Some PARTICIPLE_FORM_FULL; Some TIME_PRESENT; Some NUMBER_SINGULAR; Some CASE_GENITIVE; Some GENDER_NEUTER; Some ANIMALITY_INANIMATE], 153);
  ([Some PARTICIPLE_FORM_FULL; Some TIME_PRESENT; Some NUMBER_SINGULAR; Some CASE_GENITIVE; Some GENDER_FEMININE; Some ANIMALITY_ANIMATE], 154);
  ([Some PARTICIPLE_FORM_FULL; Some TIME_PRESENT; Some NUMBER_SINGULAR; Some CASE_GENITIVE; Some GENDER_FEMININE; Some ANIMALITY_INANIMATE], 155);
  ([Some PARTICIPLE_FORM_FULL; Some TIME_PRESENT; Some NUMBER_SINGULAR; Some CASE_DATIVE; Some GENDER_MASCULINE; Some ANIMALITY_ANIMATE], 156);
  ([Some PARTICIPLE_FORM_FULL; Some TIME_PRESENT; Some NUMBER_SINGULAR; Some CASE_DATIVE; Some GENDER_MASCULINE; Some ANIMALITY_INANIMATE], 157);
  ([Some PARTICIPLE_FORM_FULL; Some TIME_PRESENT; Some NUMBER_SINGULAR; Some CASE_DATIVE; Some GENDER_NEUTER; Some ANIMALITY_ANIMATE], 158);
  ([Some PARTICIPLE_FORM_FULL; Some TIME_PRESENT; Some NUMBER_SINGULAR; Some CASE_DATIVE; Some GENDER_NEUTER; Some ANIMALITY_INANIMATE], 159);
  ([Some PARTICIPLE_FORM_FULL; Some TIME_PRESENT; Some NUMBER_SINGULAR; Some CASE_DATIVE; Some GENDER_FEMININE; Some ANIMALITY_ANIMATE], 160);
  ([Some PARTICIPLE_FORM_FULL; Some TIME_PRESENT; Some NUMBER_SINGULAR; Some CASE_DATIVE; Some GENDER_FEMININE; Some ANIMALITY_INANIMATE], 161);
  ([Some PARTICIPLE_FORM_FULL; Some TIME_PRESENT; Some NUMBER_SINGULAR; Some CASE_ACCUSATIVE; Some GENDER_MASCULINE; Some ANIMALITY_ANIMATE], 162);
  ([Some PARTICIPLE_FORM_FULL; Some TIME_PRESENT; Some NUMBER_SINGULAR; Some CASE_ACCUSATIVE; Some GENDER_MASCULINE; Some ANIMALITY_INANIMATE], 163);
  ([Some PARTICIPLE_FORM_FULL; Some TIME_PRESENT; Some NUMBER_SINGULAR; Some CASE_ACCUSATIVE; Some GENDER_NEUTER; Some ANIMALITY_ANIMATE], 164);
  ([Some PARTICIPLE_FORM_FULL; Some TIME_PRESENT; Some NUMBER_SINGULAR; Some CASE_ACCUSATIVE; Some GENDER_NEUTER; Some ANIMALITY_INANIMATE], 165);
  ([Some PARTICIPLE_FORM_FULL; Some TIME_PRESENT; Some NUMBER_SINGULAR; Some CASE_ACCUSATIVE; Some GENDER_FEMININE; Some ANIMALITY_ANIMATE], 166);
  ([Some PARTICIPLE_FORM_FULL; Some TIME_PRESENT; Some NUMBER_SINGULAR; Some CASE_ACCUSATIVE; Some GENDER_FEMININE; Some ANIMALITY_INANIMATE], 167);
  ([Some PARTICIPLE_FORM_FULL; Some TIME_PRESENT; Some NUMBER_SINGULAR; Some CASE_INSTRUMENTAL; Some GENDER_MASCULINE; Some ANIMALITY_ANIMATE], 168);
  ([Some PARTICIPLE_FORM_FULL; Some TIME_PRESENT; Some NUMBER_SINGULAR; Some CASE_INSTRUMENTAL; Some GENDER_MASCULINE; Some ANIMALITY_INANIMATE], 169);
  ([Some PARTICIPLE_FORM_FULL; Some TIME_PRESENT; Some NUMBER_SINGULAR; Some CASE_INSTRUMENTAL; Some GENDER_NEUTER; Some ANIMALITY_ANIMATE], 170);
  ([Some PARTICIPLE_FORM_FULL; Some TIME_PRESENT; Some NUMBER_SINGULAR; Some CASE_INSTRUMENTAL; Some GENDER_NEUTER; Some ANIMALITY_INANIMATE], 171);
  ([Some PARTICIPLE_FORM_FULL; Some TIME_PRESENT; Some NUMBER_SINGULAR; Some CASE_INSTRUMENTAL; Some GENDER_FEMININE; Some ANIMALITY_ANIMATE], 172);
  ([Some PARTICIPLE_FORM_FULL; Some TIME_PRESENT; Some NUMBER_SINGULAR; Some CASE_INSTRUMENTAL; Some GENDER_FEMININE; Some ANIMALITY_INANIMATE], 173);
  ([Some PARTICIPLE_FORM_FULL; Some TIME_PRESENT; Some NUMBER_SINGULAR; Some CASE_PREPOSITIONAL; Some GENDER_MASCULINE; Some ANIMALITY_ANIMATE], 174);
  ([Some PARTICIPLE_FORM_FULL; Some TIME_PRESENT; Some NUMBER_SINGULAR; Some CASE_PREPOSITIONAL; Some GENDER_MASCULINE; Some ANIMALITY_INANIMATE], 175);
  ([Some PARTICIPLE_FORM_FULL; Some TIME_PRESENT; Some NUMBER_SINGULAR; Some CASE_PREPOSITIONAL; Some GENDER_NEUTER; Some ANIMALITY_ANIMATE], 176);
  ([Some PARTICIPLE_FORM_FULL; Some TIME_PRESENT; Some NUMBER_SINGULAR; Some CASE_PREPOSITIONAL; Some GENDER_NEUTER; Some ANIMALITY_INANIMATE], 177);
  ([Some PARTICIPLE_FORM_FULL; Some TIME_PRESENT; Some NUMBER_SINGULAR; Some CASE_PREPOSITIONAL; Some GENDER_FEMININE; Some ANIMALITY_ANIMATE], 178);
  ([Some PARTICIPLE_FORM_FULL; Some TIME_PRESENT; Some NUMBER_SINGULAR; Some CASE_PREPOSITIONAL; Some GENDER_FEMININE; Some ANIMALITY_INANIMATE], 179);
  ([Some PARTICIPLE_FORM_FULL; Some TIME_PRESENT; Some NUMBER_PLURAL; Some CASE_NOMINATIVE; None; Some ANIMALITY_ANIMATE], 180);
  ([Some PARTICIPLE_FORM_FULL; Some TIME_PRESENT; Some NUMBER_PLURAL; Some CASE_NOMINATIVE; None; Some ANIMALITY_INANIMATE], 181);
  ([Some PARTICIPLE_FORM_FULL; Some TIME_PRESENT; Some NUMBER_PLURAL; Some CASE_GENITIVE; None; Some ANIMALITY_ANIMATE], 182);
  ([Some PARTICIPLE_FORM_FULL; Some TIME_PRESENT; Some NUMBER_PLURAL; Some CASE_GENITIVE; None; Some ANIMALITY_INANIMATE], 183);
  ([Some PARTICIPLE_FORM_FULL; Some TIME_PRESENT; Some NUMBER_PLURAL; Some CASE_DATIVE; None; Some ANIMALITY_ANIMATE], 184);
  ([Some PARTICIPLE_FORM_FULL; Some TIME_PRESENT; Some NUMBER_PLURAL; Some CASE_DATIVE; None; Some ANIMALITY_INANIMATE], 185);
  ([Some PARTICIPLE_FORM_FULL; Some TIME_PRESENT; Some NUMBER_PLURAL; Some CASE_ACCUSATIVE; None; Some ANIMALITY_ANIMATE], 186);
  ([Some PARTICIPLE_FORM_FULL; Some TIME_PRESENT; Some NUMBER_PLURAL; Some CASE_ACCUSATIVE; None; Some ANIMALITY_INANIMATE], 187);
  ([Some PARTICIPLE_FORM_FULL; Some TIME_PRESENT; Some NUMBER_PLURAL; Some CASE_INSTRUMENTAL; None; Some ANIMALITY_ANIMATE], 188);
  ([Some PARTICIPLE_FORM_FULL; Some TIME_PRESENT; Some NUMBER_PLURAL; Some CASE_INSTRUMENTAL; None; Some ANIMALITY_INANIMATE], 189);
  ([Some PARTICIPLE_FORM_FULL; Some TIME_PRESENT; Some NUMBER_PLURAL; Some CASE_PREPOSITIONAL; None; Some ANIMALITY_ANIMATE], 190);
  ([Some PARTICIPLE_FORM_FULL; Some TIME_PRESENT; Some NUMBER_PLURAL; Some CASE_PREPOSITIONAL; None; Some ANIMALITY_INANIMATE], 191);
  ([Some PARTICIPLE_FORM_FULL; Some TIME_FUTURE; Some NUMBER_SINGULAR; Some CASE_NOMINATIVE; Some GENDER_MASCULINE; Some ANIMALITY_ANIMATE], 192);
  ([Some PARTICIPLE_FORM_FULL; Some TIME_FUTURE; Some NUMBER_SINGULAR; Some CASE_NOMINATIVE; Some GENDER_MASCULINE; Some ANIMALITY_INANIMATE], 193);
  ([Some PARTICIPLE_FORM_FULL; Some TIME_FUTURE; Some NUMBER_SINGULAR; Some CASE_NOMINATIVE; Some GENDER_NEUTER; Some ANIMALITY_ANIMATE], 194);
  ([Some PARTICIPLE_FORM_FULL; Some TIME_FUTURE; Some NUMBER_SINGULAR; Some CASE_NOMINATIVE; Some GENDER_NEUTER; Some ANIMALITY_INANIMATE], 195);
  ([Some PARTICIPLE_FORM_FULL; Some TIME_FUTURE; Some NUMBER_SINGULAR; Some CASE_NOMINATIVE; Some GENDER_FEMININE; Some ANIMALITY_ANIMATE], 196);
  ([Some PARTICIPLE_FORM_FULL; Some TIME_FUTURE; Some NUMBER_SINGULAR; Some CASE_NOMINATIVE; Some GENDER_FEMININE; Some ANIMALITY_INANIMATE], 197);
  ([Some PARTICIPLE_FORM_FULL; Some TIME_FUTURE; Some NUMBER_SINGULAR; Some CASE_GENITIVE; Some GENDER_MASCULINE; Some ANIMALITY_ANIMATE], 198);
  ([Some PARTICIPLE_FORM_FULL; Some TIME_FUTURE; Some NUMBER_SINGULAR; Some CASE_GENITIVE; Some GENDER_MASCULINE; Some ANIMALITY_INANIMATE], 199);
  ([Some PARTICIPLE_FORM_FULL; Some TIME_FUTURE; Some NUMBER_SINGULAR; Some CASE_GENITIVE; Some GENDER_NEUTER; Some ANIMALITY_ANIMATE], 200);
  ([Some PARTICIPLE_FORM_FULL; Some TIME_FUTURE; Some NUMBER_SINGULAR; Some CASE_GENITIVE; Some GENDER_NEUTER; Some ANIMALITY_INANIMATE], 201);
  ([Some PARTICIPLE_FORM_FULL; Some TIME_FUTURE; Some NUMBER_SINGULAR; Some CASE_GENITIVE; Some GENDER_FEMININE; Some ANIMALITY_ANIMATE], 202);
  ([Some PARTICIPLE_FORM_FULL; Some TIME_FUTURE; Some NUMBER_SINGULAR; Some CASE_GENITIVE; Some GENDER_FEMININE; Some ANIMALITY_INANIMATE], 203);
  ([Some PARTICIPLE_FORM_FULL; Some TIME_FUTURE; Some NUMBER_SINGULAR; Some CASE_DATIVE; Some GENDER_MASCULINE; Some ANIMALITY_ANIMATE], 204);
  ([Some PARTICIPLE_FORM_FULL; Some TIME_FUTURE; Some NUMBER_SINGULAR; Some CASE_DATIVE; Some GENDER_MASCULINE; Some ANIMALITY_INANIMATE], 205);
  ([Some PARTICIPLE_FORM_FULL; Some TIME_FUTURE; Some NUMBER_SINGULAR; Some CASE_DATIVE; Some GENDER_NEUTER; Some ANIMALITY_ANIMATE], 206);
  ([Some PARTICIPLE_FORM_FULL; Some TIME_FUTURE; Some NUMBER_SINGULAR; Some CASE_DATIVE; Some GENDER_NEUTER; Some ANIMALITY_INANIMATE], 207);
  ([Some PARTICIPLE_FORM_FULL; Some TIME_FUTURE; Some NUMBER_SINGULAR; Some CASE_DATIVE; Some GENDER_FEMININE; Some ANIMALITY_ANIMATE], 208);
  ([Some PARTICIPLE_FORM_FULL; Some TIME_FUTURE; Some NUMBER_SINGULAR; Some CASE_DATIVE; Some GENDER_FEMININE; Some ANIMALITY_INANIMATE], 209);
  ([Some PARTICIPLE_FORM_FULL; Some TIME_FUTURE; Some NUMBER_SINGULAR; Some CASE_ACCUSATIVE; Some GENDER_MASCULINE; Some ANIMALITY_ANIMATE], 210);
  ([Some PARTICIPLE_FORM_FULL; Some TIME_FUTURE; Some NUMBER_SINGULAR; Some CASE_ACCUSATIVE; Some GENDER_MASCULINE; Some ANIMALITY_INANIMATE], 211);
  ([Some PARTICIPLE_FORM_FULL; Some TIME_FUTURE; Some NUMBER_SINGULAR; Some CASE_ACCUSATIVE; Some GENDER_NEUTER; Some ANIMALITY_ANIMATE], 212);
  ([Some PARTICIPLE_FORM_FULL; Some TIME_FUTURE; Some NUMBER_SINGULAR; Some CASE_ACCUSATIVE; Some GENDER_NEUTER; Some ANIMALITY_INANIMATE], 213);
  ([Some PARTICIPLE_FORM_FULL; Some TIME_FUTURE; Some NUMBER_SINGULAR; Some CASE_ACCUSATIVE; Some GENDER_FEMININE; Some ANIMALITY_ANIMATE], 214);
  ([Some PARTICIPLE_FORM_FULL; Some TIME_FUTURE; Some NUMBER_SINGULAR; Some CASE_ACCUSATIVE; Some GENDER_FEMININE; Some ANIMALITY_INANIMATE], 215);
  ([Some PARTICIPLE_FORM_FULL; Some TIME_FUTURE; Some NUMBER_SINGULAR; Some CASE_INSTRUMENTAL; Some GENDER_MASCULINE; Some ANIMALITY_ANIMATE], 216);
  ([Some PARTICIPLE_FORM_FULL; Some TIME_FUTURE; Some NUMBER_SINGULAR; Some CASE_INSTRUMENTAL; Some GENDER_MASCULINE; Some ANIMALITY_INANIMATE], 217);
  ([Some PARTICIPLE_FORM_FULL; Some TIME_FUTURE; Some NUMBER_SINGULAR; Some CASE_INSTRUMENTAL; Some GENDER_NEUTER; Some ANIMALITY_ANIMATE], 218);
  ([Some PARTICIPLE_FORM_FULL; Some TIME_FUTURE; Some NUMBER_SINGULAR; Some CASE_INSTRUMENTAL; Some GENDER_NEUTER; Some ANIMALITY_INANIMATE], 219);
  ([Some PARTICIPLE_FORM_FULL; Some TIME_FUTURE; Some NUMBER_SINGULAR; Some CASE_INSTRUMENTAL; Some GENDER_FEMININE; Some ANIMALITY_ANIMATE], 220);
  ([Some PARTICIPLE_FORM_FULL; Some TIME_FUTURE; Some NUMBER_SINGULAR; Some CASE_INSTRUMENTAL; Some GENDER_FEMININE; Some ANIMALITY_INANIMATE], 221);
  ([Some PARTICIPLE_FORM_FULL; Some TIME_FUTURE; Some NUMBER_SINGULAR; Some CASE_PREPOSITIONAL; Some GENDER_MASCULINE; Some ANIMALITY_ANIMATE], 222);
  ([Some PARTICIPLE_FORM_FULL; Some TIME_FUTURE; Some NUMBER_SINGULAR; Some CASE_PREPOSITIONAL; Some GENDER_MASCULINE; Some ANIMALITY_INANIMATE], 223);
  ([Some PARTICIPLE_FORM_FULL; Some TIME_FUTURE; Some NUMBER_SINGULAR; Some CASE_PREPOSITIONAL; Some GENDER_NEUTER; Some ANIMALITY_ANIMATE], 224);
  ([Some PARTICIPLE_FORM_FULL; Some TIME_FUTURE; Some NUMBER_SINGULAR; Some CASE_PREPOSITIONAL; Some GENDER_NEUTER; Some ANIMALITY_INANIMATE], 225);
  ([Some PARTICIPLE_FORM_FULL; Some TIME_FUTURE; Some NUMBER_SINGULAR; Some CASE_PREPOSITIONAL; Some GENDER_FEMININE; Some ANIMALITY_ANIMATE], 226);
  ([Some PARTICIPLE_FORM_FULL; Some TIME_FUTURE; Some NUMBER_SINGULAR; Some CASE_PREPOSITIONAL; Some GENDER_FEMININE; Some ANIMALITY_INANIMATE], 227);
  ([Some PARTICIPLE_FORM_FULL; Some TIME_FUTURE; Some NUMBER_PLURAL; Some CASE_NOMINATIVE; None; Some ANIMALITY_ANIMATE], 228);
  ([Some PARTICIPLE_FORM_FULL; Some TIME_FUTURE; Some NUMBER_PLURAL; Some CASE_NOMINATIVE; None; Some ANIMALITY_INANIMATE], 229);
  ([Some PARTICIPLE_FORM_FULL; Some TIME_FUTURE; Some NUMBER_PLURAL; Some CASE_GENITIVE; None; Some ANIMALITY_ANIMATE], 230);
  ([Some PARTICIPLE_FORM_FULL; Some TIME_FUTURE; Some NUMBER_PLURAL; Some CASE_GENITIVE; None; Some ANIMALITY_INANIMATE], 231);
  ([Some PARTICIPLE_FORM_FULL; Some TIME_FUTURE; Some NUMBER_PLURAL; Some CASE_DATIVE; None; Some ANIMALITY_ANIMATE], 232);
  ([Some PARTICIPLE_FORM_FULL; Some TIME_FUTURE; Some NUMBER_PLURAL; Some CASE_DATIVE; None; Some ANIMALITY_INANIMATE], 233);
  ([Some PARTICIPLE_FORM_FULL; Some TIME_FUTURE; Some NUMBER_PLURAL; Some CASE_ACCUSATIVE; None; Some ANIMALITY_ANIMATE], 234);
  ([Some PARTICIPLE_FORM_FULL; Some TIME_FUTURE; Some NUMBER_PLURAL; Some CASE_ACCUSATIVE; None; Some ANIMALITY_INANIMATE], 235);
  ([Some PARTICIPLE_FORM_FULL; Some TIME_FUTURE; Some NUMBER_PLURAL; Some CASE_INSTRUMENTAL; None; Some ANIMALITY_ANIMATE], 236);
  ([Some PARTICIPLE_FORM_FULL; Some TIME_FUTURE; Some NUMBER_PLURAL; Some CASE_INSTRUMENTAL; None; Some ANIMALITY_INANIMATE], 237);
  ([Some PARTICIPLE_FORM_FULL; Some TIME_FUTURE; Some NUMBER_PLURAL; Some CASE_PREPOSITIONAL; None; Some ANIMALITY_ANIMATE], 238);
  ([Some PARTICIPLE_FORM_FULL; Some TIME_FUTURE; Some NUMBER_PLURAL; Some CASE_PREPOSITIONAL; None; Some ANIMALITY_INANIMATE], 239);
  ([Some PARTICIPLE_FORM_FULL; Some TIME_FUTURE; Some NUMBER_SINGULAR; Some CASE_NOMINATIVE; Some GENDER_MASCULINE; Some ANIMALITY_ANIMATE], 240);
  ([Some PARTICIPLE_FORM_FULL; Some TIME_FUTURE; Some NUMBER_SINGULAR; Some CASE_NOMINATIVE; Some GENDER_MASCULINE; Some ANIMALITY_INANIMATE], 241);
  ([Some PARTICIPLE_FORM_FULL; Some TIME_FUTURE; Some NUMBER_SINGULAR; Some CASE_NOMINATIVE; Some GENDER_NEUTER; Some ANIMALITY_ANIMATE], 242);
  ([Some PARTICIPLE_FORM_FULL; Some TIME_FUTURE; Some NUMBER_SINGULAR; Some CASE_NOMINATIVE; Some GENDER_NEUTER; Some ANIMALITY_INANIMATE], 243);
  ([Some PARTICIPLE_FORM_FULL; Some TIME_FUTURE; Some NUMBER_SINGULAR; Some CASE_NOMINATIVE; Some GENDER_FEMININE; Some ANIMALITY_ANIMATE], 244);
  ([Some PARTICIPLE_FORM_FULL; Some TIME_FUTURE; Some NUMBER_SINGULAR; Some CASE_NOMINATIVE; Some GENDER_FEMININE; Some ANIMALITY_INANIMATE], 245);
  ([Some PARTICIPLE_FORM_FULL; Some TIME_FUTURE; Some NUMBER_SINGULAR; Some CASE_GENITIVE; Some GENDER_MASCULINE; Some ANIMALITY_ANIMATE], 246);
  ([Some PARTICIPLE_FORM_FULL; Some TIME_FUTURE; Some NUMBER_SINGULAR; Some CASE_GENITIVE; Some GENDER_MASCULINE; Some ANIMALITY_INANIMATE], 247);
  ([Some PARTICIPLE_FORM_FULL; Some TIME_FUTURE; Some NUMBER_SINGULAR; Some CASE_GENITIVE; Some GENDER_NEUTER; Some ANIMALITY_ANIMATE], 248);
  ([Some PARTICIPLE_FORM_FULL; Some TIME_FUTURE; Some NUMBER_SINGULAR; Some CASE_GENITIVE; Some GENDER_NEUTER; Some ANIMALITY_INANIMATE], 249);
  ([Some PARTICIPLE_FORM_FULL; Some TIME_FUTURE; Some NUMBER_SINGULAR; Some CASE_GENITIVE; Some GENDER_FEMININE; Some ANIMALITY_ANIMATE], 250);
  ([Some PARTICIPLE_FORM_FULL; Some TIME_FUTURE; Some NUMBER_SINGULAR; Some CASE_GENITIVE; Some GENDER_FEMININE; Some ANIMALITY_INANIMATE], 251);
  ([Some PARTICIPLE_FORM_FULL; Some TIME_FUTURE; Some NUMBER_SINGULAR; Some CASE_DATIVE; Some GENDER_MASCULINE; Some ANIMALITY_ANIMATE], 252);
  ([Some PARTICIPLE_FORM_FULL; Some TIME_FUTURE; Some NUMBER_SINGULAR; Some CASE_DATIVE; Some GENDER_MASCULINE; Some ANIMALITY_INANIMATE], 253);
  ([Some PARTICIPLE_FORM_FULL; Some TIME_FUTURE; Some NUMBER_SINGULAR; Some CASE_DATIVE; Some GENDER_NEUTER; Some ANIMALITY_ANIMATE], 254);
  ([Some PARTICIPLE_FORM_FULL; Some TIME_FUTURE; Some NUMBER_SINGULAR; Some CASE_DATIVE; Some GENDER_NEUTER; Some ANIMALITY_INANIMATE], 255);
  ([Some PARTICIPLE_FORM_FULL; Some TIME_FUTURE; Some NUMBER_SINGULAR; Some CASE_DATIVE; Some GENDER_FEMININE; Some ANIMALITY_ANIMATE], 256);
  ([Some PARTICIPLE_FORM_FULL; Some TIME_FUTURE; Some NUMBER_SINGULAR; Some CASE_DATIVE; Some GENDER_FEMININE; Some ANIMALITY_INANIMATE], 257);
  ([Some PARTICIPLE_FORM_FULL; Some TIME_FUTURE; Some NUMBER_SINGULAR; Some CASE_ACCUSATIVE; Some GENDER_MASCULINE; Some ANIMALITY_ANIMATE], 258);
  ([Some PARTICIPLE_FORM_FULL; Some TIME_FUTURE; Some NUMBER_SINGULAR; Some CASE_ACCUSATIVE; Some GENDER_MASCULINE; Some ANIMALITY_INANIMATE], 259);
  ([Some PARTICIPLE_FORM_FULL; Some TIME_FUTURE; Some NUMBER_SINGULAR; Some CASE_ACCUSATIVE; Some GENDER_NEUTER; Some ANIMALITY_ANIMATE], 260);
  ([Some PARTICIPLE_FORM_FULL; Some TIME_FUTURE; Some NUMBER_SINGULAR; Some CASE_ACCUSATIVE; Some GENDER_NEUTER; Some ANIMALITY_INANIMATE], 261);
  ([Some PARTICIPLE_FORM_FULL; Some TIME_FUTURE; Some NUMBER_SINGULAR; Some CASE_ACCUSATIVE; Some GENDER_FEMININE; Some ANIMALITY_ANIMATE], 262);
  ([Some PARTICIPLE_FORM_FULL; Some TIME_FUTURE; Some NUMBER_SINGULAR; Some CASE_ACCUSATIVE; Some GENDER_FEMININE; Some ANIMALITY_INANIMATE], 263);
  ([Some PARTICIPLE_FORM_FULL; Some TIME_FUTURE; Some NUMBER_SINGULAR; Some CASE_INSTRUMENTAL; Some GENDER_MASCULINE; Some ANIMALITY_ANIMATE], 264);
  ([Some PARTICIPLE_FORM_FULL; Some TIME_FUTURE; Some NUMBER_SINGULAR; Some CASE_INSTRUMENTAL; Some GENDER_MASCULINE; Some ANIMALITY_INANIMATE], 265);
  ([Some PARTICIPLE_FORM_FULL; Some TIME_FUTURE; Some NUMBER_SINGULAR; Some CASE_INSTRUMENTAL; Some GENDER_NEUTER; Some ANIMALITY_ANIMATE], 266);
  ([Some PARTICIPLE_FORM_FULL; Some TIME_FUTURE; Some NUMBER_SINGULAR; Some CASE_INSTRUMENTAL; Some GENDER_NEUTER; Some ANIMALITY_INANIMATE], 267);
  ([Some PARTICIPLE_FORM_FULL; Some TIME_FUTURE; Some NUMBER_SINGULAR; Some CASE_INSTRUMENTAL; Some GENDER_FEMININE; Some ANIMALITY_ANIMATE], 268);
  ([Some PARTICIPLE_FORM_FULL; Some TIME_FUTURE; Some NUMBER_SINGULAR; Some CASE_INSTRUMENTAL; Some GENDER_FEMININE; Some ANIMALITY_INANIMATE], 269);
  ([Some PARTICIPLE_FORM_FULL; Some TIME_FUTURE; Some NUMBER_SINGULAR; Some CASE_PREPOSITIONAL; Some GENDER_MASCULINE; Some ANIMALITY_ANIMATE], 270);
  ([Some PARTICIPLE_FORM_FULL; Some TIME_FUTURE; Some NUMBER_SINGULAR; Some CASE_PREPOSITIONAL; Some GENDER_MASCULINE; Some ANIMALITY_INANIMATE], 271);
  ([Some PARTICIPLE_FORM_FULL; Some TIME_FUTURE; Some NUMBER_SINGULAR; Some CASE_PREPOSITIONAL; Some GENDER_NEUTER; Some ANIMALITY_ANIMATE], 272);
  ([Some PARTICIPLE_FORM_FULL; Some TIME_FUTURE; Some NUMBER_SINGULAR; Some CASE_PREPOSITIONAL; Some GENDER_NEUTER; Some ANIMALITY_INANIMATE], 273);
  ([Some PARTICIPLE_FORM_FULL; Some TIME_FUTURE; Some NUMBER_SINGULAR; Some CASE_PREPOSITIONAL; Some GENDER_FEMININE; Some ANIMALITY_ANIMATE], 274);
  ([Some PARTICIPLE_FORM_FULL; Some TIME_FUTURE; Some NUMBER_SINGULAR; Some CASE_PREPOSITIONAL; Some GENDER_FEMININE; Some ANIMALITY_INANIMATE], 275);
  ([Some PARTICIPLE_FORM_FULL; Some TIME_FUTURE; Some NUMBER_PLURAL; Some CASE_NOMINATIVE; None; Some ANIMALITY_ANIMATE], 276);
  ([Some PARTICIPLE_FORM_FULL; Some TIME_FUTURE; Some NUMBER_PLURAL; Some CASE_NOMINATIVE; None; Some ANIMALITY_INANIMATE], 277);
  ([Some PARTICIPLE_FORM_FULL; Some TIME_FUTURE; Some NUMBER_PLURAL; Some CASE_GENITIVE; None; Some ANIMALITY_ANIMATE], 278);
  ([Some PARTICIPLE_FORM_FULL; Some TIME_FUTURE; Some NUMBER_PLURAL; Some CASE_GENITIVE; None; Some ANIMALITY_INANIMATE], 279);
  ([Some PARTICIPLE_FORM_FULL; Some TIME_FUTURE; Some NUMBER_PLURAL; Some CASE_DATIVE; None; Some ANIMALITY_ANIMATE], 280);
  ([Some PARTICIPLE_FORM_FULL; Some TIME_FUTURE; Some NUMBER_PLURAL; Some CASE_DATIVE; None; Some ANIMALITY_INANIMATE], 281);
  ([Some PARTICIPLE_FORM_FULL; Some TIME_FUTURE; Some NUMBER_PLURAL; Some CASE_ACCUSATIVE; None; Some ANIMALITY_ANIMATE], 282);
  ([Some PARTICIPLE_FORM_FULL; Some TIME_FUTURE; Some NUMBER_PLURAL; Some CASE_ACCUSATIVE; None; Some ANIMALITY_INANIMATE], 283);
  ([Some PARTICIPLE_FORM_FULL; Some TIME_FUTURE; Some NUMBER_PLURAL; Some CASE_INSTRUMENTAL; None; Some ANIMALITY_ANIMATE], 284);
  ([Some PARTICIPLE_FORM_FULL; Some TIME_FUTURE; Some NUMBER_PLURAL; Some CASE_INSTRUMENTAL; None; Some ANIMALITY_INANIMATE], 285);
  ([Some PARTICIPLE_FORM_FULL; Some TIME_FUTURE; Some NUMBER_PLURAL; Some CASE_PREPOSITIONAL; None; Some ANIMALITY_ANIMATE], 286);
  ([Some PARTICIPLE_FORM_FULL; Some TIME_FUTURE; Some NUMBER_PLURAL; Some CASE_PREPOSITIONAL; None; Some ANIMALITY_INANIMATE], 287);
  ([Some PARTICIPLE_FORM_SHORT; None; Some NUMBER_SINGULAR; None; Some GENDER_MASCULINE; None], 288);
  ([Some PARTICIPLE_FORM_SHORT; None; Some NUMBER_SINGULAR; None; Some GENDER_NEUTER; None], 289);
  ([Some PARTICIPLE_FORM_SHORT; None; Some NUMBER_SINGULAR; None; Some GENDER_FEMININE; None], 290);
  ([Some PARTICIPLE_FORM_SHORT; None; Some NUMBER_PLURAL; None; None; None], 291)
].

(** utg/migrations/m_0007_reduce_words_forms.py:586-586 *)
Definition m7_OLD_CACHES_INTEGER : dict key nat := dict_literal [
  ([], 0)
].

(** utg/migrations/m_0007_reduce_words_forms.py:587-587 *)
Definition m7_OLD_CACHES_TEXT : dict key nat := dict_literal [
  ([], 0)
].

(** utg/migrations/m_0007_reduce_words_forms.py:588-590 *)
Definition m7_OLD_CACHES_PREPOSITION : dict key nat := dict_literal [
  ([Some PREPOSITION_FORM_NORMAL], 0);
  ([Some PREPOSITION_FORM_ALTERNATIVE], 1);
  ([Some PREPOSITION_FORM_SPECIAL], 2)
].

(** utg/migrations/m_0007_reduce_words_forms.py:29 *)
Definition m7_OLD_CACHES (t : word_type) : dict key nat :=
  match t with
  | WT_NOUN => m7_OLD_CACHES_NOUN
  | WT_ADJECTIVE => m7_OLD_CACHES_ADJECTIVE
  | WT_PRONOUN => m7_OLD_CACHES_PRONOUN
  | WT_VERB => m7_OLD_CACHES_VERB
  | WT_PARTICIPLE => m7_OLD_CACHES_PARTICIPLE
  | WT_INTEGER => m7_OLD_CACHES_INTEGER
  | WT_TEXT => m7_OLD_CACHES_TEXT
  | WT_PREPOSITION => m7_OLD_CACHES_PREPOSITION
  end.

(** utg/migrations/m_0007_reduce_words_forms.py:592-609 *)
Definition m7_NEW_CACHES_NOUN : dict key nat := dict_literal [
  ([Some NOUN_FORM_NORMAL; Some NUMBER_SINGULAR; Some CASE_NOMINATIVE], 0);
  ([Some NOUN_FORM_NORMAL; Some NUMBER_SINGULAR; Some CASE_GENITIVE], 1);
  ([Some NOUN_FORM_NORMAL; Some NUMBER_SINGULAR; Some CASE_DATIVE], 2);
  ([Some NOUN_FORM_NORMAL; Some NUMBER_SINGULAR; Some CASE_ACCUSATIVE], 3);
  ([Some NOUN_FORM_NORMAL; Some NUMBER_SINGULAR; Some CASE_INSTRUMENTAL], 4);
  ([Some NOUN_FORM_NORMAL; Some NUMBER_SINGULAR; Some CASE_PREPOSITIONAL], 5);
  ([Some NOUN_FORM_NORMAL; Some NUMBER_PLURAL; Some CASE_NOMINATIVE], 6);
  ([Some NOUN_FORM_NORMAL; Some NUMBER_PLURAL; Some CASE_GENITIVE], 7);
  ([Some NOUN_FORM_NORMAL; Some NUMBER_PLURAL; Some CASE_DATIVE], 8);
  ([Some NOUN_FORM_NORMAL; Some NUMBER_PLURAL; Some CASE_ACCUSATIVE], 9);
  ([Some NOUN_FORM_NORMAL; Some NUMBER_PLURAL; Some CASE_INSTRUMENTAL], 10);
  ([Some NOUN_FORM_NORMAL; Some NUMBER_PLURAL; Some CASE_PREPOSITIONAL], 11);
  ([Some NOUN_FORM_COUNTABLE; Some NUMBER_PLURAL; Some CASE_NOMINATIVE], 12);
  ([Some NOUN_FORM_COUNTABLE; Some NUMBER_PLURAL; Some CASE_GENITIVE], 13);
  ([Some NOUN_FORM_COUNTABLE; Some NUMBER_PLURAL; Some CASE_DATIVE], 14);
  ([Some NOUN_FORM_COUNTABLE; Some NUMBER_PLURAL; Some CASE_ACCUSATIVE], 15);
  ([Some NOUN_FORM_COUNTABLE; Some NUMBER_PLURAL; Some CASE_INSTRUMENTAL], 16);
  ([Some NOUN_FORM_COUNTABLE; Some NUMBER_PLURAL; Some CASE_PREPOSITIONAL], 17)
].

(** utg/migrations/m_0007_reduce_words_forms.py:610-710 *)
Definition m7_NEW_CACHES_ADJECTIVE : dict key nat := dict_literal [
  ([Some ADJECTIVE_FORM_FULL; Some GRADE_POSITIVE; Some NUMBER_SINGULAR; Some CASE_NOMINATIVE; Some GENDER_MASCULINE; Some ANIMALITY_ANIMATE], 0);
  ([Some ADJECTIVE_FORM_FULL; Some GRADE_POSITIVE; Some NUMBER_SINGULAR; Some CASE_NOMINATIVE; Some GENDER_MASCULINE; Some ANIMALITY_INANIMATE], 1);
  ([Some ADJECTIVE_FORM_FULL; Some GRADE_POSITIVE; Some NUMBER_SINGULAR; Some CASE_NOMINATIVE; Some GENDER_NEUTER; Some ANIMALITY_ANIMATE], 2);
  ([Some ADJECTIVE_FORM_FULL; Some GRADE_POSITIVE; Some NUMBER_SINGULAR; Some CASE_NOMINATIVE; Some GENDER_NEUTER; Some ANIMALITY_INANIMATE], 3);
  ([Some ADJECTIVE_FORM_FULL; Some GRADE_POSITIVE; Some NUMBER_SINGULAR; Some CASE_NOMINATIVE; Some GENDER_FEMININE; Some ANIMALITY_ANIMATE], 4);
  ([Some ADJECTIVE_FORM_FULL; Some GRADE_POSITIVE; Some NUMBER_SINGULAR; Some CASE_NOMINATIVE; Some GENDER_FEMININE; Some ANIMALITY_INANIMATE], 5);
  ([Some ADJECTIVE_FORM_FULL; Some GRADE_POSITIVE; Some NUMBER_SINGULAR; Some CASE_GENITIVE; Some GENDER_MASCULINE; Some ANIMALITY_ANIMATE], 6);
  ([Some ADJECTIVE_FORM_FULL; Some GRADE_POSITIVE; Some NUMBER_SINGULAR; Some CASE_GENITIVE; Some GENDER_MASCULINE; Some ANIMALITY_INANIMATE], 7);
  ([Some ADJECTIVE_FORM_FULL; Some GRADE_POSITIVE; Some NUMBER_SINGULAR; Some CASE_GENITIVE; Some GENDER_NEUTER; Some ANIMALITY_ANIMATE], 8);
  ([Some ADJECTIVE_FORM_FULL; Some GRADE_POSITIVE; Some NUMBER_SINGULAR; Some CASE_GENITIVE; Some GENDER_NEUTER; Some ANIMALITY_INANIMATE], 9);
  ([Some ADJECTIVE_FORM_FULL; Some GRADE_POSITIVE; Some NUMBER_SINGULAR; Some CASE_GENITIVE; Some GENDER_FEMININE; Some ANIMALITY_ANIMATE], 10);
  ([Some ADJECTIVE_FORM_FULL; Some GRADE_POSITIVE; Some NUMBER_SINGULAR; Some CASE_GENITIVE; Some GENDER_FEMININE; Some ANIMALITY_INANIMATE], 11);
  ([Some ADJECTIVE_FORM_FULL; Some GRADE_POSITIVE; Some NUMBER_SINGULAR; Some CASE_DATIVE; Some GENDER_MASCULINE; Some ANIMALITY_ANIMATE], 12);
  ([Some ADJECTIVE_FORM_FULL; Some GRADE_POSITIVE; Some NUMBER_SINGULAR; Some CASE_DATIVE; Some GENDER_MASCULINE; Some ANIMALITY_INANIMATE], 13);
  ([Some ADJECTIVE_FORM_FULL; Some GRADE_POSITIVE; Some NUMBER_SINGULAR; Some CASE_DATIVE; Some GENDER_NEUTER; Some ANIMALITY_ANIMATE], 14);
  ([Some ADJECTIVE_FORM_FULL; Some GRADE_POSITIVE; Some NUMBER_SINGULAR; Some CASE_DATIVE; Some GENDER_NEUTER; Some ANIMALITY_INANIMATE], 15);
  ([Some ADJECTIVE_FORM_FULL; Some GRADE_POSITIVE; Some NUMBER_SINGULAR; Some CASE_DATIVE; Some GENDER_FEMININE; Some ANIMALITY_ANIMATE], 16);
  ([Some ADJECTIVE_FORM_FULL; Some GRADE_POSITIVE; Some NUMBER_SINGULAR; Some CASE_DATIVE; Some GENDER_FEMININE; Some ANIMALITY_INANIMATE], 17);
  ([Some ADJECTIVE_FORM_FULL; Some GRADE_POSITIVE; Some NUMBER_SINGULAR; Some CASE_ACCUSATIVE; Some GENDER_MASCULINE; Some ANIMALITY_ANIMATE], 18);
  ([Some ADJECTIVE_FORM_FULL; Some GRADE_POSITIVE; Some NUMBER_SINGULAR; Some CASE_ACCUSATIVE; Some GENDER_MASCULINE; Some ANIMALITY_INANIMATE], 19);
  ([Some ADJECTIVE_FORM_FULL; Some GRADE_POSITIVE; Some NUMBER_SINGULAR; Some CASE_ACCUSATIVE; Some GENDER_NEUTER; Some ANIMALITY_ANIMATE], 20);
  ([Some ADJECTIVE_FORM_FULL; Some GRADE_POSITIVE; Some NUMBER_SINGULAR; Some CASE_ACCUSATIVE; Some GENDER_NEUTER; Some ANIMALITY_INANIMATE], 21);
  ([Some ADJECTIVE_FORM_FULL; Some GRADE_POSITIVE; Some NUMBER_SINGULAR; Some CASE_ACCUSATIVE; Some GENDER_FEMININE; Some ANIMALITY_ANIMATE], 22);
  ([Some ADJECTIVE_FORM_FULL; Some GRADE_POSITIVE; Some NUMBER_SINGULAR; Some CASE_ACCUSATIVE; Some GENDER_FEMININE; Some ANIMALITY_INANIMATE], 23);
  ([Some ADJECTIVE_FORM_FULL; Some GRADE_POSITIVE; Some NUMBER_SINGULAR; Some CASE_INSTRUMENTAL; Some GENDER_MASCULINE; Some ANIMALITY_ANIMATE], 24);
  ([Some ADJECTIVE_FORM_FULL; Some GRADE_POSITIVE; Some NUMBER_SINGULAR; Some CASE_INSTRUMENTAL; Some GENDER_MASCULINE; Some ANIMALITY_INANIMATE], 25);
  ([Some ADJECTIVE_FORM_FULL; Some GRADE_POSITIVE; Some NUMBER_SINGULAR; Some CASE_INSTRUMENTAL; Some GENDER_NEUTER; Some ANIMALITY_ANIMATE], 26);
  ([Some ADJECTIVE_FORM_FULL; Some GRADE_POSITIVE; Some NUMBER_SINGULAR; Some CASE_INSTRUMENTAL; Some GENDER_NEUTER; Some ANIMALITY_INANIMATE], 27);
  ([Some ADJECTIVE_FORM_FULL; Some GRADE_POSITIVE; Some NUMBER_SINGULAR; Some CASE_INSTRUMENTAL; Some GENDER_FEMININE; Some ANIMALITY_ANIMATE], 28);
  ([Some ADJECTIVE_FORM_FULL; Some GRADE_POSITIVE; Some NUMBER_SINGULAR; Some CASE_INSTRUMENTAL; Some GENDER_FEMININE; Some ANIMALITY_INANIMATE], 29);
  ([Some ADJECTIVE_FORM_FULL; Some GRADE_POSITIVE; Some NUMBER_SINGULAR; Some CASE_PREPOSITIONAL; Some GENDER_MASCULINE; Some ANIMALITY_ANIMATE], 30);
  ([Some ADJECTIVE_FORM_FULL; Some GRADE_POSITIVE; Some NUMBER_SINGULAR; Some CASE_PREPOSITIONAL; Some GENDER_MASCULINE; Some ANIMALITY_INANIMATE], 31);
  ([Some ADJECTIVE_FORM_FULL; Some GRADE_POSITIVE; Some NUMBER_SINGULAR; Some CASE_PREPOSITIONAL; Some GENDER_NEUTER; Some ANIMALITY_ANIMATE], 32);
  ([Some ADJECTIVE_FORM_FULL; Some GRADE_POSITIVE; Some NUMBER_SINGULAR; Some CASE_PREPOSITIONAL; Some GENDER_NEUTER; Some ANIMALITY_INANIMATE], 33);
  ([Some ADJECTIVE_FORM_FULL; Some GRADE_POSITIVE; Some NUMBER_SINGULAR; Some CASE_PREPOSITIONAL; Some GENDER_FEMININE; Some ANIMALITY_ANIMATE], 34);
  ([Some ADJECTIVE_FORM_FULL; Some GRADE_POSITIVE; Some NUMBER_SINGULAR; Some CASE_PREPOSITIONAL; Some GENDER_FEMININE; Some ANIMALITY_INANIMATE], 35);
  ([Some ADJECTIVE_FORM_FULL; Some GRADE_POSITIVE; Some NUMBER_PLURAL; Some CASE_NOMINATIVE; None; Some ANIMALITY_ANIMATE], 36);
  ([Some ADJECTIVE_FORM_FULL; Some GRADE_POSITIVE; Some NUMBER_PLURAL; Some CASE_NOMINATIVE; None; Some ANIMALITY_INANIMATE], 37);
  ([Some ADJECTIVE_FORM_FULL; Some GRADE_POSITIVE; Some NUMBER_PLURAL; Some CASE_GENITIVE; None; Some ANIMALITY_ANIMATE], 38);
  ([Some ADJECTIVE_FORM_FULL; Some GRADE_POSITIVE; Some NUMBER_PLURAL; Some CASE_GENITIVE; None; Some ANIMALITY_INANIMATE], 39);
  ([Some ADJECTIVE_FORM_FULL; Some GRADE_POSITIVE; Some NUMBER_PLURAL; Some CASE_DATIVE; None; Some ANIMALITY_ANIMATE], 40);
  ([Some ADJECTIVE_FORM_FULL; Some GRADE_POSITIVE; Some NUMBER_PLURAL; Some CASE_DATIVE; None; Some ANIMALITY_INANIMATE], 41);
  ([Some ADJECTIVE_FORM_FULL; Some GRADE_POSITIVE; Some NUMBER_PLURAL; Some CASE_ACCUSATIVE; None; Some ANIMALITY_ANIMATE], 42);
  ([Some ADJECTIVE_FORM_FULL; Some GRADE_POSITIVE; Some NUMBER_PLURAL; Some CASE_ACCUSATIVE; None; Some ANIMALITY_INANIMATE], 43);
  ([Some ADJECTIVE_FORM_FULL; Some GRADE_POSITIVE; Some NUMBER_PLURAL; Some CASE_INSTRUMENTAL; None; Some ANIMALITY_ANIMATE], 44);
  ([Some ADJECTIVE_FORM_FULL; Some GRADE_POSITIVE; Some NUMBER_PLURAL; Some CASE_INSTRUMENTAL; None; Some ANIMALITY_INANIMATE], 45);
  ([Some ADJECTIVE_FORM_FULL; Some GRADE_POSITIVE; Some NUMBER_PLURAL; Some CASE_PREPOSITIONAL; None; Some ANIMALITY_ANIMATE], 46);
  ([Some ADJECTIVE_FORM_FULL; Some GRADE_POSITIVE; Some NUMBER_PLURAL; Some CASE_PREPOSITIONAL; None; Some ANIMALITY_INANIMATE], 47);
  ([Some ADJECTIVE_FORM_FULL; Some GRADE_COMPARATIVE; None; None; None; None], 48);
  ([Some ADJECTIVE_FORM_FULL; Some GRADE_SUPERLATIVE; Some NUMBER_SINGULAR; Some CASE_NOMINATIVE; Some GENDER_MASCULINE; Some ANIMALITY_ANIMATE], 49);
  ([Some ADJECTIVE_FORM_FULL; Some GRADE_SUPERLATIVE; Some NUMBER_SINGULAR; Some CASE_NOMINATIVE; Some GENDER_MASCULINE; Some ANIMALITY_INANIMATE], 50);
  ([Some ADJECTIVE_FORM_FULL; Some GRADE_SUPERLATIVE; Some NUMBER_SINGULAR; Some CASE_NOMINATIVE; Some GENDER_NEUTER; Some ANIMALITY_ANIMATE], 51);
  ([Some ADJECTIVE_FORM_FULL; Some GRADE_SUPERLATIVE; Some NUMBER_SINGULAR; Some CASE_NOMINATIVE; Some GENDER_NEUTER; Some ANIMALITY_INANIMATE], 52);
  ([Some ADJECTIVE_FORM_FULL; Some GRADE_SUPERLATIVE; Some NUMBER_SINGULAR; Some CASE_NOMINATIVE; Some GENDER_FEMININE; Some ANIMALITY_ANIMATE], 53);
  ([Some ADJECTIVE_FORM_FULL; Some GRADE_SUPERLATIVE; Some NUMBER_SINGULAR; Some CASE_NOMINATIVE; Some GENDER_FEMININE; Some ANIMALITY_INANIMATE], 54);
  ([Some ADJECTIVE_FORM_FULL; Some GRADE_SUPERLATIVE; Some NUMBER_SINGULAR; Some CASE_GENITIVE; Some GENDER_MASCULINE; Some ANIMALITY_ANIMATE], 55);
  ([Some ADJECTIVE_FORM_FULL; Some GRADE_SUPERLATIVE; Some NUMBER_SINGULAR; Some CASE_GENITIVE; Some GENDER_MASCULINE; Some ANIMALITY_INANIMATE], 56);
  ([Some ADJECTIVE_FORM_FULL; Some GRADE_SUPERLATIVE; Some NUMBER_SINGULAR; Some CASE_GENITIVE; Some GENDER_NEUTER; Some ANIMALITY_ANIMATE], 57);
  ([Some ADJECTIVE_FORM_FULL; Some GRADE_SUPERLATIVE; Some NUMBER_SINGULAR; Some CASE_GENITIVE; Some GENDER_NEUTER; Some ANIMALITY_INANIMATE], 58);
  ([Some ADJECTIVE_FORM_FULL; Some GRADE_SUPERLATIVE; Some NUMBER_SINGULAR; Some CASE_GENITIVE; Some GENDER_FEMININE; Some ANIMALITY_ANIMATE], 59);
  ([Some ADJECTIVE_FORM_FULL; Some GRADE_SUPERLATIVE; Some NUMBER_SINGULAR; Some CASE_GENITIVE; Some GENDER_FEMININE; Some ANIMALITY_INANIMATE], 60);
  ([Some ADJECTIVE_FORM_FULL; Some GRADE_SUPERLATIVE; Some NUMBER_SINGULAR; Some CASE_DATIVE; Some GENDER_MASCULINE; Some ANIMALITY_ANIMATE], 61);
  ([Some ADJECTIVE_FORM_FULL; Some GRADE_SUPERLATIVE; Some NUMBER_SINGULAR; Some CASE_DATIVE; Some GENDER_MASCULINE; Some ANIMALITY_INANIMATE], 62);
  ([Some ADJECTIVE_FORM_FULL; Some GRADE_SUPERLATIVE; Some NUMBER_SINGULAR; Some CASE_DATIVE; Some GENDER_NEUTER; Some ANIMALITY_ANIMATE], 63);
  ([Some ADJECTIVE_FORM_FULL; Some GRADE_SUPERLATIVE; Some NUMBER_SINGULAR; Some CASE_DATIVE; Some GENDER_NEUTER; Some ANIMALITY_INANIMATE], 64);
  ([Some ADJECTIVE_FORM_FULL; Some GRADE_SUPERLATIVE; Some NUMBER_SINGULAR; Some CASE_DATIVE; Some GENDER_FEMININE; Some ANIMALITY_ANIMATE], 65);
  ([Some ADJECTIVE_FORM_FULL; Some GRADE_SUPERLATIVE; Some NUMBER_SINGULAR; Some CASE_DATIVE; Some GENDER_FEMININE; Some ANIMALITY_INANIMATE], 66);
  ([Some ADJECTIVE_FORM_FULL; Some GRADE_SUPERLATIVE; Some NUMBER_SINGULAR; Some CASE_ACCUSATIVE; Some GENDER_MASCULINE; Some ANIMALITY_ANIMATE], 67);
  ([Some ADJECTIVE_FORM_FULL; Some GRADE_SUPERLATIVE; Some NUMBER_SINGULAR; Some CASE_ACCUSATIVE; Some GENDER_MASCULINE; Some ANIMALITY_INANIMATE], 68);
  ([Some ADJECTIVE_FORM_FULL; Some GRADE_SUPERLATIVE; Some NUMBER_SINGULAR; Some CASE_ACCUSATIVE; Some GENDER_NEUTER; Some ANIMALITY_ANIMATE], 69);
  ([Some ADJECTIVE_FORM_FULL; Some GRADE_SUPERLATIVE; Some NUMBER_SINGULAR; Some CASE_ACCUSATIVE; Some GENDER_NEUTER; Some ANIMALITY_INANIMATE], 70);
  ([Some ADJECTIVE_FORM_FULL; Some GRADE_SUPERLATIVE; Some NUMBER_SINGULAR; Some CASE_ACCUSATIVE; Some GENDER_FEMININE; Some ANIMALITY_ANIMATE], 71);
  ([Some ADJECTIVE_FORM_FULL; Some GRADE_SUPERLATIVE; Some NUMBER_SINGULAR; Some CASE_ACCUSATIVE; Some GENDER_FEMININE; Some ANIMALITY_INANIMATE], 72);
  ([Some ADJECTIVE_FORM_FULL; Some GRADE_SUPERLATIVE; Some NUMBER_SINGULAR; Some CASE_INSTRUMENTAL; Some GENDER_MASCULINE; Some ANIMALITY_ANIMATE], 73);
  ([Some ADJECTIVE_FORM_FULL; Some GRADE_SUPERLATIVE; Some NUMBER_SINGULAR; Some CASE_INSTRUMENTAL; Some GENDER_MASCULINE; Some ANIMALITY_INANIMATE], 74);
  ([Some ADJECTIVE_FORM_FULL; Some GRADE_SUPERLATIVE; Some NUMBER_SINGULAR; Some CASE_INSTRUMENTAL; Some GENDER_NEUTER; Some ANIMALITY_ANIMATE], 75);
  ([Some ADJECTIVE_FORM_FULL; Some GRADE_SUPERLATIVE; Some NUMBER_SINGULAR; Some CASE_INSTRUMENTAL; Some GENDER_NEUTER; Some ANIMALITY_INANIMATE], 76);
  ([Some ADJECTIVE_FORM_FULL; Some GRADE_SUPERLATIVE; Some NUMBER_SINGULAR; Some CASE_INSTRUMENTAL; Some GENDER_FEMININE; Some ANIMALITY_ANIMATE], 77);
  ([Some ADJECTIVE_FORM_FULL; Some GRADE_SUPERLATIVE; Some NUMBER_SINGULAR; Some CASE_INSTRUMENTAL; Some GENDER_FEMININE; Some ANIMALITY_INANIMATE], 78);
  ([Some ADJECTIVE_FORM_FULL; Some GRADE_SUPERLATIVE; Some NUMBER_SINGULAR; Some CASE_PREPOSITIONAL; Some GENDER_MASCULINE; Some ANIMALITY_ANIMATE], 79);
  ([Some ADJECTIVE_FORM_FULL; Some GRADE_SUPERLATIVE; Some NUMBER_SINGULAR; Some CASE_PREPOSITIONAL; Some GENDER_MASCULINE; Some ANIMALITY_INANIMATE], 80);
  ([Some ADJECTIVE_FORM_FULL; Some GRADE_SUPERLATIVE; Some NUMBER_SINGULAR; Some CASE_PREPOSITIONAL; Some GENDER_NEUTER; Some ANIMALITY_ANIMATE], 81);
  ([Some ADJECTIVE_FORM_FULL; Some GRADE_SUPERLATIVE; Some NUMBER_SINGULAR; Some CASE_PREPOSITIONAL; Some GENDER_NEUTER; Some ANIMALITY_INANIMATE], 82);
  ([Some ADJECTIVE_FORM_FULL; Some GRADE_SUPERLATIVE; Some NUMBER_SINGULAR; Some CASE_PREPOSITIONAL; Some GENDER_FEMININE; Some ANIMALITY_ANIMATE], 83);
  ([Some ADJECTIVE_FORM_FULL; Some GRADE_SUPERLATIVE; Some NUMBER_SINGULAR; Some CASE_PREPOSITIONAL; Some GENDER_FEMININE; Some ANIMALITY_INANIMATE], 84);
  ([Some ADJECTIVE_FORM_FULL; Some GRADE_SUPERLATIVE; Some NUMBER_PLURAL; Some CASE_NOMINATIVE; None; Some ANIMALITY_ANIMATE], 85);
  ([Some ADJECTIVE_FORM_FULL; Some GRADE_SUPERLATIVE; Some NUMBER_PLURAL; Some CASE_NOMINATIVE; None; Some ANIMALITY_INANIMATE], 86);
  ([Some ADJECTIVE_FORM_FULL; Some GRADE_SUPERLATIVE; Some NUMBER_PLURAL; Some CASE_GENITIVE; None; Some ANIMALITY_ANIMATE], 87);
  ([Some ADJECTIVE_FORM_FULL; Some GRADE_SUPERLATIVE; Some NUMBER_PLURAL; Some CASE_GENITIVE; None; Some ANIMALITY_INANIMATE], 88);
  ([Some ADJECTIVE_FORM_FULL; Some GRADE_SUPERLATIVE; Some NUMBER_PLURAL; Some CASE_DATIVE; None; Some ANIMALITY_ANIMATE], 89);
  ([Some ADJECTIVE_FORM_FULL; Some GRADE_SUPERLATIVE; Some NUMBER_PLURAL; Some CASE_DATIVE; None; Some ANIMALITY_INANIMATE], 90);
  ([Some ADJECTIVE_FORM_FULL; Some GRADE_SUPERLATIVE; Some NUMBER_PLURAL; Some CASE_ACCUSATIVE; None; Some ANIMALITY_ANIMATE], 91);
  ([Some ADJECTIVE_FORM_FULL; Some GRADE_SUPERLATIVE; Some NUMBER_PLURAL; Some CASE_ACCUSATIVE; None; Some ANIMALITY_INANIMATE], 92);
  ([Some ADJECTIVE_FORM_FULL; Some GRADE_SUPERLATIVE; Some NUMBER_PLURAL; Some CASE_INSTRUMENTAL; None; Some ANIMALITY_ANIMATE], 93);
  ([Some ADJECTIVE_FORM_FULL; Some GRADE_SUPERLATIVE; Some NUMBER_PLURAL; Some CASE_INSTRUMENTAL; None; Some ANIMALITY_INANIMATE], 94);
  ([Some ADJECTIVE_FORM_FULL; Some GRADE_SUPERLATIVE; Some NUMBER_PLURAL; Some CASE_PREPOSITIONAL; None; Some ANIMALITY_ANIMATE], 95);
  ([Some ADJECTIVE_FORM_FULL; Some GRADE_SUPERLATIVE; Some NUMBER_PLURAL; Some CASE_PREPOSITIONAL; None; Some ANIMALITY_INANIMATE], 96);
  ([Some ADJECTIVE_FORM_SHORT; None; Some NUMBER_SINGULAR; None; Some GENDER_MASCULINE; None], 97);
  ([Some ADJECTIVE_FORM_SHORT; None; Some NUMBER_SINGULAR; None; Some GENDER_NEUTER; None], 98);
  ([Some ADJECTIVE_FORM_SHORT; None; Some NUMBER_SINGULAR; None; Some GENDER_FEMININE; None], 99);
  ([Some ADJECTIVE_FORM_SHORT; None; Some NUMBER_PLURAL; None; None; None], 100)
].

(** utg/migrations/m_0007_reduce_words_forms.py:711-782 *)
Definition m7_NEW_CACHES_PRONOUN : dict key nat := dict_literal [
  ([Some NUMBER_SINGULAR; Some CASE_NOMINATIVE; Some PERSON_FIRST; Some GENDER_MASCULINE], 0);
  ([Some NUMBER_SINGULAR; Some CASE_NOMINATIVE; Some PERSON_FIRST; Some GENDER_NEUTER], 1);
  ([Some NUMBER_SINGULAR; Some CASE_NOMINATIVE; Some PERSON_FIRST; Some GENDER_FEMININE], 2);
  ([Some NUMBER_SINGULAR; Some CASE_NOMINATIVE; Some PERSON_SECOND; Some GENDER_MASCULINE], 3);
  ([Some NUMBER_SINGULAR; Some CASE_NOMINATIVE; Some PERSON_SECOND; Some GENDER_NEUTER], 4);
  ([Some NUMBER_SINGULAR; Some CASE_NOMINATIVE; Some PERSON_SECOND; Some GENDER_FEMININE], 5);
  ([Some NUMBER_SINGULAR; Some CASE_NOMINATIVE; Some PERSON_THIRD; Some GENDER_MASCULINE], 6);
  ([Some NUMBER_SINGULAR; Some CASE_NOMINATIVE; Some PERSON_THIRD; Some GENDER_NEUTER], 7);
  ([Some NUMBER_SINGULAR; Some CASE_NOMINATIVE; Some PERSON_THIRD; Some GENDER_FEMININE], 8);
  ([Some NUMBER_SINGULAR; Some CASE_GENITIVE; Some PERSON_FIRST; Some GENDER_MASCULINE], 9);
  ([Some NUMBER_SINGULAR; Some CASE_GENITIVE; Some PERSON_FIRST; Some GENDER_NEUTER], 10);
  ([Some NUMBER_SINGULAR; Some CASE_GENITIVE; Some PERSON_FIRST; Some GENDER_FEMININE], 11);
  ([Some NUMBER_SINGULAR; Some CASE_GENITIVE; Some PERSON_SECOND; Some GENDER_MASCULINE], 12);
  ([Some NUMBER_SINGULAR; Some CASE_GENITIVE; Some PERSON_SECOND; Some GENDER_NEUTER], 13);
  ([Some NUMBER_SINGULAR; Some CASE_GENITIVE; Some PERSON_SECOND; Some GENDER_FEMININE], 14);
  ([Some NUMBER_SINGULAR; Some CASE_GENITIVE; Some PERSON_THIRD; Some GENDER_MASCULINE], 15);
  ([Some NUMBER_SINGULAR; Some CASE_GENITIVE; Some PERSON_THIRD; Some GENDER_NEUTER], 16);
  ([Some NUMBER_SINGULAR; Some CASE_GENITIVE; Some PERSON_THIRD; Some GENDER_FEMININE], 17);
  ([Some NUMBER_SINGULAR; Some CASE_DATIVE; Some PERSON_FIRST; Some GENDER_MASCULINE], 18);
  ([Some NUMBER_SINGULAR; Some CASE_DATIVE; Some PERSON_FIRST; Some GENDER_NEUTER], 19);
  ([Some NUMBER_SINGULAR; Some CASE_DATIVE; Some PERSON_FIRST; Some GENDER_FEMININE], 20);
  ([Some NUMBER_SINGULAR; Some CASE_DATIVE; Some PERSON_SECOND; Some GENDER_MASCULINE], 21);
  ([Some NUMBER_SINGULAR; Some CASE_DATIVE; Some PERSON_SECOND; Some GENDER_NEUTER], 22);
  ([Some NUMBER_SINGULAR; Some CASE_DATIVE; Some PERSON_SECOND; Some GENDER_FEMININE], 23);
  ([Some NUMBER_SINGULAR; Some CASE_DATIVE; Some PERSON_THIRD; Some GENDER_MASCULINE], 24);
  ([Some NUMBER_SINGULAR; Some CASE_DATIVE; Some PERSON_THIRD; Some GENDER_NEUTER], 25);
  ([Some NUMBER_SINGULAR; Some CASE_DATIVE; Some PERSON_THIRD; Some GENDER_FEMININE], 26);
  ([Some NUMBER_SINGULAR; Some CASE_ACCUSATIVE; Some PERSON_FIRST; Some GENDER_MASCULINE], 27);
  ([Some NUMBER_SINGULAR; Some CASE_ACCUSATIVE; Some PERSON_FIRST; Some GENDER_NEUTER], 28);
  ([Some NUMBER_SINGULAR; Some CASE_ACCUSATIVE; Some PERSON_FIRST; Some GENDER_FEMININE], 29);
  ([Some NUMBER_SINGULAR; Some CASE_ACCUSATIVE; Some PERSON_SECOND; Some GENDER_MASCULINE], 30);
  ([Some NUMBER_SINGULAR; Some CASE_ACCUSATIVE; Some PERSON_SECOND; Some GENDER_NEUTER], 31);
  ([Some NUMBER_SINGULAR; Some CASE_ACCUSATIVE; Some PERSON_SECOND; Some GENDER_FEMININE], 32);
  ([Some NUMBER_SINGULAR; Some CASE_ACCUSATIVE; Some PERSON_THIRD; Some GENDER_MASCULINE], 33);
  ([Some NUMBER_SINGULAR; Some CASE_ACCUSATIVE; Some PERSON_THIRD; Some GENDER_NEUTER], 34);
  ([Some NUMBER_SINGULAR; Some CASE_ACCUSATIVE; Some PERSON_THIRD; Some GENDER_FEMININE], 35);
  ([Some NUMBER_SINGULAR; Some CASE_INSTRUMENTAL; Some PERSON_FIRST; Some GENDER_MASCULINE], 36);
  ([Some NUMBER_SINGULAR; Some CASE_INSTRUMENTAL; Some PERSON_FIRST; Some GENDER_NEUTER], 37);
  ([Some NUMBER_SINGULAR; Some CASE_INSTRUMENTAL; Some PERSON_FIRST; Some GENDER_FEMININE], 38);
  ([Some NUMBER_SINGULAR; Some CASE_INSTRUMENTAL; Some PERSON_SECOND; Some GENDER_MASCULINE], 39);
  ([Some NUMBER_SINGULAR; Some CASE_INSTRUMENTAL; Some PERSON_SECOND; Some GENDER_NEUTER], 40);
  ([Some NUMBER_SINGULAR; Some CASE_INSTRUMENTAL; Some PERSON_SECOND; Some GENDER_FEMININE], 41);
  ([Some NUMBER_SINGULAR; Some CASE_INSTRUMENTAL; Some PERSON_THIRD; Some GENDER_MASCULINE], 42);
  ([Some NUMBER_SINGULAR; Some CASE_INSTRUMENTAL; Some PERSON_THIRD; Some GENDER_NEUTER], 43);
  ([Some NUMBER_SINGULAR; Some CASE_INSTRUMENTAL; Some PERSON_THIRD; Some GENDER_FEMININE], 44);
  ([Some NUMBER_SINGULAR; Some CASE_PREPOSITIONAL; Some PERSON_FIRST; Some GENDER_MASCULINE], 45);
  ([Some NUMBER_SINGULAR; Some CASE_PREPOSITIONAL; Some PERSON_FIRST; Some GENDER_NEUTER], 46);
  ([Some NUMBER_SINGULAR; Some CASE_PREPOSITIONAL; Some PERSON_FIRST; Some GENDER_FEMININE], 47);
  ([Some NUMBER_SINGULAR; Some CASE_PREPOSITIONAL; Some PERSON_SECOND; Some GENDER_MASCULINE], 48);
  ([Some NUMBER_SINGULAR; Some CASE_PREPOSITIONAL; Some PERSON_SECOND; Some GENDER_NEUTER], 49);
  ([Some NUMBER_SINGULAR; Some CASE_PREPOSITIONAL; Some PERSON_SECOND; Some GENDER_FEMININE], 50);
  ([Some NUMBER_SINGULAR; Some CASE_PREPOSITIONAL; Some PERSON_THIRD; Some GENDER_MASCULINE], 51);
  ([Some NUMBER_SINGULAR; Some CASE_PREPOSITIONAL; Some PERSON_THIRD; Some GENDER_NEUTER], 52);
  ([Some NUMBER_SINGULAR; Some CASE_PREPOSITIONAL; Some PERSON_THIRD; Some GENDER_FEMININE], 53);
  ([Some NUMBER_PLURAL; Some CASE_NOMINATIVE; Some PERSON_FIRST; None], 54);
  ([Some NUMBER_PLURAL; Some CASE_NOMINATIVE; Some PERSON_SECOND; None], 55);
  ([Some NUMBER_PLURAL; Some CASE_NOMINATIVE; Some PERSON_THIRD; None], 56);
  ([Some NUMBER_PLURAL; Some CASE_GENITIVE; Some PERSON_FIRST; None], 57);
  ([Some NUMBER_PLURAL; Some CASE_GENITIVE; Some PERSON_SECOND; None], 58);
  ([Some NUMBER_PLURAL; Some CASE_GENITIVE; Some PERSON_THIRD; None], 59);
  ([Some NUMBER_PLURAL; Some CASE_DATIVE; Some PERSON_FIRST; None], 60);
  ([Some NUMBER_PLURAL; Some CASE_DATIVE; Some PERSON_SECOND; None], 61);
  ([Some NUMBER_PLURAL; Some CASE_DATIVE; Some PERSON_THIRD; None], 62);
  ([Some NUMBER_PLURAL; Some CASE_ACCUSATIVE; Some PERSON_FIRST; None], 63);
  ([Some NUMBER_PLURAL; Some CASE_ACCUSATIVE; Some PERSON_SECOND; None], 64);
  ([Some NUMBER_PLURAL; Some CASE_ACCUSATIVE; Some PERSON_THIRD; None], 65);
  ([Some NUMBER_PLURAL; Some CASE_INSTRUMENTAL; Some PERSON_FIRST; None], 66);
  ([Some NUMBER_PLURAL; Some CASE_INSTRUMENTAL; Some PERSON_SECOND; None], 67);
  ([Some NUMBER_PLURAL; Some CASE_INSTRUMENTAL; Some PERSON_THIRD; None], 68);
  ([Some NUMBER_PLURAL; Some CASE_PREPOSITIONAL; Some PERSON_FIRST; None], 69);
  ([Some NUMBER_PLURAL; Some CASE_PREPOSITIONAL; Some PERSON_SECOND; None], 70);
  ([Some NUMBER_PLURAL; Some CASE_PREPOSITIONAL; Some PERSON_THIRD; None], 71)
].

(** utg/migrations/m_0007_reduce_words_forms.py:783-802 *)
Definition m7_NEW_CACHES_VERB : dict key nat := dict_literal [
  ([Some VERB_FORM_INFINITIVE; None; None; None; None], 0);
  ([Some VERB_FORM_INDICATIVE; Some TIME_PAST; Some NUMBER_SINGULAR; None; Some GENDER_MASCULINE], 1);
  ([Some VERB_FORM_INDICATIVE; Some TIME_PAST; Some NUMBER_SINGULAR; None; Some GENDER_NEUTER], 2);
  ([Some VERB_FORM_INDICATIVE; Some TIME_PAST; Some NUMBER_SINGULAR; None; Some GENDER_FEMININE], 3);
  ([Some VERB_FORM_INDICATIVE; Some TIME_PAST; Some NUMBER_PLURAL; None; None], 4);
  ([Some VERB_FORM_INDICATIVE; Some TIME_PRESENT; Some NUMBER_SINGULAR; Some PERSON_FIRST; None], 5);
  ([Some VERB_FORM_INDICATIVE; Some TIME_PRESENT; Some NUMBER_SINGULAR; Some PERSON_SECOND; None], 6);
  ([Some VERB_FORM_INDICATIVE; Some TIME_PRESENT; Some NUMBER_SINGULAR; Some PERSON_THIRD; None], 7);
  ([Some VERB_FORM_INDICATIVE; Some TIME_PRESENT; Some NUMBER_PLURAL; Some PERSON_FIRST; None], 8);
  ([Some VERB_FORM_INDICATIVE; Some TIME_PRESENT; Some NUMBER_PLURAL; Some PERSON_SECOND; None], 9);
  ([Some VERB_FORM_INDICATIVE; Some TIME_PRESENT; Some NUMBER_PLURAL; Some PERSON_THIRD; None], 10);
  ([Some VERB_FORM_INDICATIVE; Some TIME_FUTURE; Some NUMBER_SINGULAR; Some PERSON_FIRST; None], 11);
  ([Some VERB_FORM_INDICATIVE; Some TIME_FUTURE; Some NUMBER_SINGULAR; Some PERSON_SECOND; None], 12);
  ([Some VERB_FORM_INDICATIVE; Some TIME_FUTURE; Some NUMBER_SINGULAR; Some PERSON_THIRD; None], 13);
  ([Some VERB_FORM_INDICATIVE; Some TIME_FUTURE; Some NUMBER_PLURAL; Some PERSON_FIRST; None], 14);
  ([Some VERB_FORM_INDICATIVE; Some TIME_FUTURE; Some NUMBER_PLURAL; Some PERSON_SECOND; None], 15);
  ([Some VERB_FORM_INDICATIVE; Some TIME_FUTURE; Some NUMBER_PLURAL; Some PERSON_THIRD; None], 16);
  ([Some VERB_FORM_IMPERATIVE; None; Some NUMBER_SINGULAR; Some PERSON_SECOND; None], 17);
  ([Some VERB_FORM_IMPERATIVE; None; Some NUMBER_PLURAL; Some PERSON_FIRST; None], 18);
  ([Some VERB_FORM_IMPERATIVE; None; Some NUMBER_PLURAL; Some PERSON_SECOND; None], 19)
].

(** utg/migrations/m_0007_reduce_words_forms.py:803-950 *)
Definition m7_NEW_CACHES_PARTICIPLE : dict key nat := dict_literal [
  ([Some PARTICIPLE_FORM_FULL; Some TIME_PAST; Some NUMBER_SINGULAR; Some CASE_NOMINATIVE; Some GENDER_MASCULINE; Some ANIMALITY_ANIMATE], 0);
  ([Some PARTICIPLE_FORM_FULL; Some TIME_PAST; Some NUMBER_SINGULAR; Some CASE_NOMINATIVE; Some GENDER_MASCULINE; Some ANIMALITY_INANIMATE], 1);
  ([Some PARTICIPLE_FORM_FULL; Some TIME_PAST; Some NUMBER_SINGULAR; Some CASE_NOMINATIVE; Some GENDER_NEUTER; Some ANIMALITY_ANIMATE], 2);
  ([Some PARTICIPLE_FORM_FULL; Some TIME_PAST; Some NUMBER_SINGULAR; Some CASE_NOMINATIVE; Some GENDER_NEUTER; Some ANIMALITY_INANIMATE], 3);
  ([Some PARTICIPLE_FORM_FULL; Some TIME_PAST; Some NUMBER_SINGULAR; Some CASE_NOMINATIVE; Some GENDER_FEMININE; Some ANIMALITY_ANIMATE], 4);
  ([Some PARTICIPLE_FORM_FULL; Some TIME_PAST; Some NUMBER_SINGULAR; Some CASE_NOMINATIVE; Some GENDER_FEMININE; Some ANIMALITY_INANIMATE], 5);
  ([Some PARTICIPLE_FORM_FULL; Some TIME_PAST; Some NUMBER_SINGULAR; Some CASE_GENITIVE; Some GENDER_MASCULINE; Some ANIMALITY_ANIMATE], 6);
  ([Some PARTICIPLE_FORM_FULL; Some TIME_PAST; Some NUMBER_SINGULAR; Some CASE_GENITIVE; Some GENDER_MASCULINE; Some ANIMALITY_INANIMATE], 7);
  ([Some PARTICIPLE_FORM_FULL; Some TIME_PAST; Some NUMBER_SINGULAR; Some CASE_GENITIVE; Some GENDER_NEUTER; Some ANIMALITY_ANIMATE], 8);
  ([Some PARTICIPLE_FORM_FULL; Some TIME_PAST; Some NUMBER_SINGULAR; Some CASE_GENITIVE; Some GENDER_NEUTER; Some ANIMALITY_INANIMATE], 9);
  ([Some PARTICIPLE_FORM_FULL; Some TIME_PAST; Some NUMBER_SINGULAR; Some CASE_GENITIVE; Some GENDER_FEMININE; Some ANIMALITY_ANIMATE], 10);
  ([Some PARTICIPLE_FORM_FULL; Some TIME_PAST; Some NUMBER_SINGULAR; Some CASE_GENITIVE; Some GENDER_FEMININE; Some ANIMALITY_INANIMATE], 11);
  ([Some PARTICIPLE_FORM_FULL; Some TIME_PAST; Some NUMBER_SINGULAR; Some CASE_DATIVE; Some GENDER_MASCULINE; Some ANIMALITY_ANIMATE], 12);
  ([Some PARTICIPLE_FORM_FULL; Some TIME_PAST; Some NUMBER_SINGULAR; Some CASE_DATIVE; Some GENDER_MASCULINE; Some ANIMALITY_INANIMATE], 13);
  ([Some PARTICIPLE_FORM_FULL; Some TIME_PAST; Some NUMBER_SINGULAR; Some CASE_DATIVE; Some GENDER_NEUTER; Some ANIMALITY_ANIMATE], 14);
  ([Some PARTICIPLE_FORM_FULL; Some TIME_PAST; Some NUMBER_SINGULAR; Some CASE_DATIVE; Some GENDER_NEUTER; Some ANIMALITY_INANIMATE], 15);
  ([Some PARTICIPLE_FORM_FULL; Some TIME_PAST; Some NUMBER_SINGULAR; Some CASE_DATIVE; Some GENDER_FEMININE; Some ANIMALITY_ANIMATE], 16);
  ([Some PARTICIPLE_FORM_FULL; Some TIME_PAST; Some NUMBER_SINGULAR; Some CASE_DATIVE; Some GENDER_FEMININE; Some ANIMALITY_INANIMATE], 17);
  ([Some PARTICIPLE_FORM_FULL; Some TIME_PAST; Some NUMBER_SINGULAR; Some CASE_ACCUSATIVE; Some GENDER_MASCULINE; Some ANIMALITY_ANIMATE], 18);
  ([Some PARTICIPLE_FORM_FULL; Some TIME_PAST; Some NUMBER_SINGULAR; Some CASE_ACCUSATIVE; Some GENDER_MASCULINE; Some ANIMALITY_INANIMATE], 19);
  ([Some PARTICIPLE_FORM_FULL; Some TIME_PAST; Some NUMBER_SINGULAR; Some CASE_ACCUSATIVE; Some GENDER_NEUTER; Some ANIMALITY_ANIMATE], 20);
  ([Some PARTICIPLE_FORM_FULL; Some TIME_PAST; Some NUMBER_SINGULAR; Some CASE_ACCUSATIVE; Some GENDER_NEUTER; Some ANIMALITY_INANIMATE], 21);
  ([Some PARTICIPLE_FORM_FULL; Some TIME_PAST; Some NUMBER_SINGULAR; Some CASE_ACCUSATIVE; Some GENDER_FEMININE; Some ANIMALITY_ANIMATE], 22);
  ([Some PARTICIPLE_FORM_FULL; Some TIME_PAST; Some NUMBER_SINGULAR; Some CASE_ACCUSATIVE; Some GENDER_FEMININE; Some ANIMALITY_INANIMATE], 23);
  ([Some PARTICIPLE_FORM_FULL; Some TIME_PAST; Some NUMBER_SINGULAR; Some CASE_INSTRUMENTAL; Some GENDER_MASCULINE; Some ANIMALITY_ANIMATE], 24);
  ([Some PARTICIPLE_FORM_FULL; Some TIME_PAST; Some NUMBER_SINGULAR; Some CASE_INSTRUMENTAL; Some GENDER_MASCULINE; Some ANIMALITY_INANIMATE], 25);
  ([Some PARTICIPLE_FORM_FULL; Some TIME_PAST; Some NUMBER_SINGULAR; Some CASE_INSTRUMENTAL; Some GENDER_NEUTER; Some ANIMALITY_ANIMATE], 26);
  ([Some PARTICIPLE_FORM_FULL; Some TIME_PAST; Some NUMBER_SINGULAR; Some CASE_INSTRUMENTAL; Some GENDER_NEUTER; Some ANIMALITY_INANIMATE], 27);
  ([Some PARTICIPLE_FORM_FULL; Some TIME_PAST; Some NUMBER_SINGULAR; Some CASE_INSTRUMENTAL; Some GENDER_FEMININE; Some ANIMALITY_ANIMATE], 28);
  ([Some PARTICIPLE_FORM_FULL; Some TIME_PAST; Some NUMBER_SINGULAR; Some CASE_INSTRUMENTAL; Some GENDER_FEMININE; Some ANIMALITY_INANIMATE], 29);
  ([Some PARTICIPLE_FORM_FULL; Some TIME_PAST; Some NUMBER_SINGULAR; Some CASE_PREPOSITIONAL; Some GENDER_MASCULINE; Some ANIMALITY_ANIMATE], 30);
  ([Some PARTICIPLE_FORM_FULL; Some TIME_PAST; Some NUMBER_SINGULAR; Some CASE_PREPOSITIONAL; Some GENDER_MASCULINE; Some ANIMALITY_INANIMATE], 31);
  ([Some PARTICIPLE_FORM_FULL; Some TIME_PAST; Some NUMBER_SINGULAR; Some CASE_PREPOSITIONAL; Some GENDER_NEUTER; Some ANIMALITY_ANIMATE], 32);
  ([Some PARTICIPLE_FORM_FULL; Some TIME_PAST; Some NUMBER_SINGULAR; Some CASE_PREPOSITIONAL; Some GENDER_NEUTER; Some ANIMALITY_INANIMATE], 33);
  ([Some PARTICIPLE_FORM_FULL; Some TIME_PAST; Some NUMBER_SINGULAR; Some CASE_PREPOSITIONAL; Some GENDER_FEMININE; Some ANIMALITY_ANIMATE], 34);
  ([Some PARTICIPLE_FORM_FULL; Some TIME_PAST; Some NUMBER_SINGULAR; Some CASE_PREPOSITIONAL; Some GENDER_FEMININE; Some ANIMALITY_INANIMATE], 35);
  ([Some PARTICIPLE_FORM_FULL; Some TIME_PAST; Some NUMBER_PLURAL; Some CASE_NOMINATIVE; None; Some ANIMALITY_ANIMATE], 36);
  ([Some PARTICIPLE_FORM_FULL; Some TIME_PAST; Some NUMBER_PLURAL; Some CASE_NOMINATIVE; None; Some ANIMALITY_INANIMATE], 37);
  ([Some PARTICIPLE_FORM_FULL; Some TIME_PAST; Some NUMBER_PLURAL; Some CASE_GENITIVE; None; Some ANIMALITY_ANIMATE], 38);
  ([Some PARTICIPLE_FORM_FULL; Some TIME_PAST; Some NUMBER_PLURAL; Some CASE_GENITIVE; None; Some ANIMALITY_INANIMATE], 39);
  ([Some PARTICIPLE_FORM_FULL; Some TIME_PAST; Some NUMBER_PLURAL; Some CASE_DATIVE; None; Some ANIMALITY_ANIMATE], 40);
  ([Some PARTICIPLE_FORM_FULL; Some TIME_PAST; Some NUMBER_PLURAL; Some CASE_DATIVE; None; Some ANIMALITY_INANIMATE], 41);
  ([Some PARTICIPLE_FORM_FULL; Some TIME_PAST; Some NUMBER_PLURAL; Some CASE_ACCUSATIVE; None; Some ANIMALITY_ANIMATE], 42);
  ([Some PARTICIPLE_FORM_FULL; Some TIME_PAST; Some NUMBER_PLURAL; Some CASE_ACCUSATIVE; None; Some ANIMALITY_INANIMATE], 43);
  ([Some PARTICIPLE_FORM_FULL; Some TIME_PAST; Some NUMBER_PLURAL; Some CASE_INSTRUMENTAL; None; Some ANIMALITY_ANIMATE], 44);
  ([Some PARTICIPLE_FORM_FULL; Some TIME_PAST; Some NUMBER_PLURAL; Some CASE_INSTRUMENTAL; None; Some ANIMALITY_INANIMATE], 45);
  ([Some PARTICIPLE_FORM_FULL; Some TIME_PAST; Some NUMBER_PLURAL; Some CASE_PREPOSITIONAL; None; Some ANIMALITY_ANIMATE], 46);
  ([Some PARTICIPLE_FORM_FULL; Some TIME_PAST; Some NUMBER_PLURAL; Some CASE_PREPOSITIONAL; None; Some ANIMALITY_INANIMATE], 47);
  ([Some PARTICIPLE_FORM_FULL; Some TIME_PRESENT; Some NUMBER_SINGULAR; Some CASE_NOMINATIVE; Some GENDER_MASCULINE; Some ANIMALITY_ANIMATE], 48);
  ([Some PARTICIPLE_FORM_FULL; Some TIME_PRESENT; Some NUMBER_SINGULAR; Some CASE_NOMINATIVE; Some GENDER_MASCULINE; Some ANIMALITY_INANIMATE], 49);
  ([Some PARTICIPLE_FORM_FULL; Some TIME_PRESENT; Some NUMBER_SINGULAR; Some CASE_NOMINATIVE; Some GENDER_NEUTER; Some ANIMALITY_ANIMATE], 50);
  ([Some PARTICIPLE_FORM_FULL; Some TIME_PRESENT; Some NUMBER_SINGULAR; Some CASE_NOMINATIVE; Some GENDER_NEUTER; Some ANIMALITY_INANIMATE], 51);
  ([Some PARTICIPLE_FORM_FULL; Some TIME_PRESENT; Some NUMBER_SINGULAR; Some CASE_NOMINATIVE; Some GENDER_FEMININE; Some ANIMALITY_ANIMATE], 52);
  ([Some PARTICIPLE_FORM_FULL; Some TIME_PRESENT; Some NUMBER_SINGULAR; Some CASE_NOMINATIVE; Some GENDER_FEMININE; Some ANIMALITY_INANIMATE], 53);
  ([Some PARTICIPLE_FORM_FULL; Some TIME_PRESENT; Some NUMBER_SINGULAR; Some CASE_GENITIVE; Some GENDER_MASCULINE; Some ANIMALITY_ANIMATE], 54);
  ([Some PARTICIPLE_FORM_FULL; Some TIME_PRESENT; Some NUMBER_SINGULAR; Some CASE_GENITIVE; Some GENDER_MASCULINE; Some ANIMALITY_INANIMATE], 55);
  ([Some PARTICIPLE_FORM_FULL; Some TIME_PRESENT; Some NUMBER_SINGULAR; Some CASE_GENITIVE; Some GENDER_NEUTER; Some ANIMALITY_ANIMATE], 56);
  ([Some PARTICIPLE_FORM_FULL; Some TIME_PRESENT; Some NUMBER_SINGULAR; Some CASE_GENITIVE; Some GENDER_NEUTER; Some ANIMALITY_INANIMATE], 57);
  ([Some PARTICIPLE_FORM_FULL; Some TIME_PRESENT; Some NUMBER_SINGULAR; Some CASE_GENITIVE; Some GENDER_FEMININE; Some ANIMALITY_ANIMATE], 58);
  ([Some PARTICIPLE_FORM_FULL; Some TIME_PRESENT; Some NUMBER_SINGULAR; Some CASE_GENITIVE; Some GENDER_FEMININE; Some ANIMALITY_INANIMATE], 59);
  ([Some PARTICIPLE_FORM_FULL; Some TIME_PRESENT; Some NUMBER_SINGULAR; Some CASE_DATIVE; Some GENDER_MASCULINE; Some ANIMALITY_ANIMATE], 60);
  ([Some PARTICIPLE_FORM_FULL; Some TIME_PRESENT; Some NUMBER_SINGULAR; Some CASE_DATIVE; Some GENDER_MASCULINE; Some ANIMALITY_INANIMATE], 61);
  ([Some PARTICIPLE_FORM_FULL; Some TIME_PRESENT; Some NUMBER_SINGULAR; Some CASE_DATIVE; Some GENDER_NEUTER; Some ANIMALITY_ANIMATE], 62);
  ([Some PARTICIPLE_FORM_FULL; Some TIME_PRESENT; Some NUMBER_SINGULAR; Some CASE_DATIVE; Some GENDER_NEUTER; Some ANIMALITY_INANIMATE], 63);
  ([Some PARTICIPLE_FORM_FULL; Some TIME_PRESENT; Some NUMBER_SINGULAR; Some CASE_DATIVE; Some GENDER_FEMININE; Some ANIMALITY_ANIMATE], 64);
  ([Some PARTICIPLE_FORM_FULL; Some TIME_PRESENT; Some NUMBER_SINGULAR; Some CASE_DATIVE; Some GENDER_FEMININE; Some ANIMALITY_INANIMATE], 65);
  ([Some PARTICIPLE_FORM_FULL; Some TIME_PRESENT; Some NUMBER_SINGULAR; Some CASE_ACCUSATIVE; Some GENDER_MASCULINE; Some ANIMALITY_ANIMATE], 66);
  ([Some PARTICIPLE_FORM_FULL; Some TIME_PRESENT; Some NUMBER_SINGULAR; Some CASE_ACCUSATIVE; Some GENDER_MASCULINE; Some ANIMALITY_INANIMATE], 67);
  ([Some PARTICIPLE_FORM_FULL; Some TIME_PRESENT; Some NUMBER_SINGULAR; Some CASE_ACCUSATIVE; Some GENDER_NEUTER; Some ANIMALITY_ANIMATE], 68);
  ([Some PARTICIPLE_FORM_FULL; Some TIME_PRESENT; Some NUMBER_SINGULAR; Some CASE_ACCUSATIVE; Some GENDER_NEUTER; Some ANIMALITY_INANIMATE], 69);
  ([Some PARTICIPLE_FORM_FULL; Some TIME_PRESENT; Some NUMBER_SINGULAR; Some CASE_ACCUSATIVE; Some GENDER_FEMININE; Some ANIMALITY_ANIMATE], 70);
  ([Some PARTICIPLE_FORM_FULL; Some TIME_PRESENT; Some NUMBER_SINGULAR; Some CASE_ACCUSATIVE; Some GENDER_FEMININE; Some ANIMALITY_INANIMATE], 71);
  ([Some PARTICIPLE_FORM_FULL; Some TIME_PRESENT; Some NUMBER_SINGULAR; Some CASE_INSTRUMENTAL; Some GENDER_MASCULINE; Some ANIMALITY_ANIMATE], 72);
  ([Some PARTICIPLE_FORM_FULL; Some TIME_PRESENT; Some NUMBER_SINGULAR; Some CASE_INSTRUMENTAL; Some GENDER_MASCULINE; Some ANIMALITY_INANIMATE], 73);
  ([Some PARTICIPLE_FORM_FULL; Some TIME_PRESENT; Some NUMBER_SINGULAR; Some CASE_INSTRUMENTAL; Some GENDER_NEUTER; Some ANIMALITY_ANIMATE], 74);
  ([Some PARTICIPLE_FORM_FULL; Some TIME_PRESENT; Some NUMBER_SINGULAR; Some CASE_INSTRUMENTAL; Some GENDER_NEUTER; Some ANIMALITY_INANIMATE], 75);
  ([Some PARTICIPLE_FORM_FULL; Some TIME_PRESENT; Some NUMBER_SINGULAR; Some CASE_INSTRUMENTAL; Some GENDER_FEMININE; Some ANIMALITY_ANIMATE], 76);
  ([Some PARTICIPLE_FORM_FULL; Some TIME_PRESENT; Some NUMBER_SINGULAR; Some CASE_INSTRUMENTAL; Some GENDER_FEMININE; Some ANIMALITY_INANIMATE], 77);
  ([Some PARTICIPLE_FORM_FULL; Some TIME_PRESENT; Some NUMBER_SINGULAR; Some CASE_PREPOSITIONAL; Some GENDER_MASCULINE; Some ANIMALITY_ANIMATE], 78);
  ([Some PARTICIPLE_FORM_FULL; Some TIME_PRESENT; Some NUMBER_SINGULAR; Some CASE_PREPOSITIONAL; Some GENDER_MASCULINE; Some ANIMALITY_INANIMATE], 79);
  ([Some PARTICIPLE_FORM_FULL; Some TIME_PRESENT; Some NUMBER_SINGULAR; Some CASE_PREPOSITIONAL; Some GENDER_NEUTER; Some ANIMALITY_ANIMATE], 80);
  ([Some PARTICIPLE_FORM_FULL; Some TIME_PRESENT; Some NUMBER_SINGULAR; Some CASE_PREPOSITIONAL; Some GENDER_NEUTER; Some ANIMALITY_INANIMATE], 81);
  ([Some PARTICIPLE_FORM_FULL; Some TIME_PRESENT; Some NUMBER_SINGULAR; Some CASE_PREPOSITIONAL; Some GENDER_FEMININE; Some ANIMALITY_ANIMATE], 82);
  ([Some PARTICIPLE_FORM_FULL; Some TIME_PRESENT; Some NUMBER_SINGULAR; Some CASE_PREPOSITIONAL; Some GENDER_FEMININE; Some ANIMALITY_INANIMATE], 83);
  ([Some PARTICIPLE_FORM_FULL; Some TIME_PRESENT; Some NUMBER_PLURAL; Some CASE_NOMINATIVE; None; Some ANIMALITY_ANIMATE], 84);
  ([Some PARTICIPLE_FORM_FULL; Some TIME_PRESENT; Some NUMBER_PLURAL; Some CASE_NOMINATIVE; None; Some ANIMALITY_INANIMATE], 85);
  ([Some PARTICIPLE_FORM_FULL; Some TIME_PRESENT; Some NUMBER_PLURAL; Some CASE_GENITIVE; None; Some ANIMALITY_ANIMATE], 86);
  ([Some PARTICIPLE_FORM_FULL; Some TIME_PRESENT; Some NUMBER_PLURAL; Some CASE_GENITIVE; None; Some ANIMALITY_INANIMATE], 87);
  ([Some PARTICIPLE_FORM_FULL; Some TIME_PRESENT; Some NUMBER_PLURAL; Some CASE_DATIVE; None; Some ANIMALITY_ANIMATE], 88);
  ([Some PARTICIPLE_FORM_FULL; Some TIME_PRESENT; Some NUMBER_PLURAL; Some CASE_DATIVE; None; Some ANIMALITY_INANIMATE], 89);
  ([Some PARTICIPLE_FORM_FULL; Some TIME_PRESENT; Some NUMBER_PLURAL; Some CASE_ACCUSATIVE; None; Some ANIMALITY_ANIMATE], 90);
  ([Some PARTICIPLE_FORM_FULL; Some TIME_PRESENT; Some NUMBER_PLURAL; Some CASE_ACCUSATIVE; None; Some ANIMALITY_INANIMATE], 91);
  ([Some PARTICIPLE_FORM_FULL; Some TIME_PRESENT; Some NUMBER_PLURAL; Some CASE_INSTRUMENTAL; None; Some ANIMALITY_ANIMATE], 92);
  ([Some PARTICIPLE_FORM_FULL; Some TIME_PRESENT; Some NUMBER_PLURAL; Some CASE_INSTRUMENTAL; None; Some ANIMALITY_INANIMATE], 93);
  ([Some PARTICIPLE_FORM_FULL; Some TIME_PRESENT; Some NUMBER_PLURAL; Some CASE_PREPOSITIONAL; None; Some ANIMALITY_ANIMATE], 94);
  ([Some PARTICIPLE_FORM_FULL; Some TIME_PRESENT; Some NUMBER_PLURAL; Some CASE_PREPOSITIONAL; None; Some ANIMALITY_INANIMATE], 95);
  ([Some PARTICIPLE_FORM_FULL; Some TIME_FUTURE; Some NUMBER_SINGULAR; Some CASE_NOMINATIVE; Some GENDER_MASCULINE; Some ANIMALITY_ANIMATE], 96);
  ([Some PARTICIPLE_FORM_FULL; Some TIME_FUTURE; Some NUMBER_SINGULAR; Some CASE_NOMINATIVE; Some GENDER_MASCULINE; Some ANIMALITY_INANIMATE], 97);
  ([Some PARTICIPLE_FORM_FULL; Some TIME_FUTURE; Some NUMBER_SINGULAR; Some CASE_NOMINATIVE; Some GENDER_NEUTER; Some ANIMALITY_ANIMATE], 98);
  ([Some PARTICIPLE_FORM_FULL; Some TIME_FUTURE; Some NUMBER_SINGULAR; Some CASE_NOMINATIVE; Some GENDER_NEUTER; Some ANIMALITY_INANIMATE], 99);
  ([Some PARTICIPLE_FORM_FULL; Some TIME_FUTURE; Some NUMBER_SINGULAR; Some CASE_NOMINATIVE; Some GENDER_FEMININE; Some ANIMALITY_ANIMATE], 100);
  ([Some PARTICIPLE_FORM_FULL; Some TIME_FUTURE; Some NUMBER_SINGULAR; Some CASE_NOMINATIVE; Some GENDER_FEMININE; Some ANIMALITY_INANIMATE], 101);
  ([Some PARTICIPLE_FORM_FULL; Some TIME_FUTURE; Some NUMBER_SINGULAR; Some CASE_GENITIVE; Some GENDER_MASCULINE; Some ANIMALITY_ANIMATE], 102);
  ([Some PARTICIPLE_FORM_FULL; Some TIME_FUTURE; Some NUMBER_SINGULAR; Some CASE_GENITIVE; Some GENDER_MASCULINE; Some ANIMALITY_INANIMATE], 103);
  ([Some PARTICIPLE_FORM_FULL; Some TIME_FUTURE; Some NUMBER_SINGULAR; Some CASE_GENITIVE; Some GENDER_NEUTER; Some ANIMALITY_ANIMATE], 104);
  ([Some PARTICIPLE_FORM_FULL; Some TIME_FUTURE; Some NUMBER_SINGULAR; Some CASE_GENITIVE; Some GENDER_NEUTER; Some ANIMALITY_INANIMATE], 105);
  ([Some PARTICIPLE_FORM_FULL; Some TIME_FUTURE; Some NUMBER_SINGULAR; Some CASE_GENITIVE; Some GENDER_FEMININE; Some ANIMALITY_ANIMATE], 106);
  ([Some PARTICIPLE_FORM_FULL; Some TIME_FUTURE; Some NUMBER_SINGULAR; Some CASE_GENITIVE; Some GENDER_FEMININE; Some ANIMALITY_INANIMATE], 107);
  ([Some PARTICIPLE_FORM_FULL; Some TIME_FUTURE; Some NUMBER_SINGULAR; Some CASE_DATIVE; Some GENDER_MASCULINE; Some ANIMALITY_ANIMATE], 108);
  ([Some PARTICIPLE_FORM_FULL; Some TIME_FUTURE; Some NUMBER_SINGULAR; Some CASE_DATIVE; Some GENDER_MASCULINE; Some ANIMALITY_INANIMATE], 109);
  ([Some PARTICIPLE_FORM_FULL; Some TIME_FUTURE; Some NUMBER_SINGULAR; Some CASE_DATIVE; Some GENDER_NEUTER; Some ANIMALITY_ANIMATE], 110);
  ([Some PARTICIPLE_FORM_FULL; Some TIME_FUTURE; Some NUMBER_SINGULAR; Some CASE_DATIVE; Some GENDER_NEUTER; Some ANIMALITY_INANIMATE], 111);
  ([Some PARTICIPLE_FORM_FULL; Some TIME_FUTURE; Some NUMBER_SINGULAR; Some CASE_DATIVE; Some GENDER_FEMININE; Some ANIMALITY_ANIMATE], 112);
  ([Some PARTICIPLE_FORM_FULL; Some TIME_FUTURE; Some NUMBER_SINGULAR; Some CASE_DATIVE; Some GENDER_FEMININE; Some ANIMALITY_INANIMATE], 113);
  ([Some PARTICIPLE_FORM_FULL; Some TIME_FUTURE; Some NUMBER_SINGULAR; Some CASE_ACCUSATIVE; Some GENDER_MASCULINE; Some ANIMALITY_ANIMATE], 114);
  ([Some PARTICIPLE_FORM_FULL; Some TIME_FUTURE; Some NUMBER_SINGULAR; Some CASE_ACCUSATIVE; Some GENDER_MASCULINE; Some ANIMALITY_INANIMATE], 115);
  ([Some PARTICIPLE_FORM_FULL; Some TIME_FUTURE; Some NUMBER_SINGULAR; Some CASE_ACCUSATIVE; Some GENDER_NEUTER; Some ANIMALITY_ANIMATE], 116);
  ([Some PARTICIPLE_FORM_FULL; Some TIME_FUTURE; Some NUMBER_SINGULAR; Some CASE_ACCUSATIVE; Some GENDER_NEUTER; Some ANIMALITY_INANIMATE], 117);
  ([Some PARTICIPLE_FORM_FULL; Some TIME_FUTURE; Some NUMBER_SINGULAR; Some CASE_ACCUSATIVE; Some GENDER_FEMININE; Some ANIMALITY_ANIMATE], 118);
  ([Some PARTICIPLE_FORM_FULL; Some TIME_FUTURE; Some NUMBER_SINGULAR; Some CASE_ACCUSATIVE; Some GENDER_FEMININE; Some ANIMALITY_INANIMATE], 119);
  ([Some PARTICIPLE_FORM_FULL; Some TIME_FUTURE; Some NUMBER_SINGULAR; Some CASE_INSTRUMENTAL; Some GENDER_MASCULINE; Some ANIMALITY_ANIMATE], 120);
  ([Some PARTICIPLE_FORM_FULL; Some TIME_FUTURE; Some NUMBER_SINGULAR; Some CASE_INSTRUMENTAL; Some GENDER_MASCULINE; Some ANIMALITY_INANIMATE], 121);
  ([Some PARTICIPLE_FORM_FULL; Some TIME_FUTURE; Some NUMBER_SINGULAR; Some CASE_INSTRUMENTAL; Some GENDER_NEUTER; Some ANIMALITY_ANIMATE], 122);
  ([Some PARTICIPLE_FORM_FULL; Some TIME_FUTURE; Some NUMBER_SINGULAR; Some CASE_INSTRUMENTAL; Some GENDER_NEUTER; Some ANIMALITY_INANIMATE], 123);
  ([Some PARTICIPLE_FORM_FULL; Some TIME_FUTURE; Some NUMBER_SINGULAR; Some CASE_INSTRUMENTAL; Some GENDER_FEMININE; Some ANIMALITY_ANIMATE], 124);
  ([Some PARTICIPLE_FORM_FULL; Some TIME_FUTURE; Some NUMBER_SINGULAR; Some CASE_INSTRUMENTAL; Some GENDER_FEMININE; Some ANIMALITY_INANIMATE], 125);
  ([Some PARTICIPLE_FORM_FULL; Some TIME_FUTURE; Some NUMBER_SINGULAR; Some CASE_PREPOSITIONAL; Some GENDER_MASCULINE; Some ANIMALITY_ANIMATE], 126);
  ([Some PARTICIPLE_FORM_FULL; Some TIME_FUTURE; Some NUMBER_SINGULAR; Some CASE_PREPOSITIONAL; Some GENDER_MASCULINE; Some ANIMALITY_INANIMATE], 127);
  ([Some PARTICIPLE_FORM_FULL; Some TIME_FUTURE; Some NUMBER_SINGULAR; Some CASE_PREPOSITIONAL; Some GENDER_NEUTER; Some ANIMALITY_ANIMATE], 128);
  ([Some PARTICIPLE_FORM_FULL; Some TIME_FUTURE; Some NUMBER_SINGULAR; Some CASE_PREPOSITIONAL; Some GENDER_NEUTER; Some ANIMALITY_INANIMATE], 129);
  ([Some PARTICIPLE_FORM_FULL; Some TIME_FUTURE; Some NUMBER_SINGULAR; Some CASE_PREPOSITIONAL; Some GENDER_FEMININE; Some ANIMALITY_ANIMATE], 130);
  ([Some PARTICIPLE_FORM_FULL; Some TIME_FUTURE; Some NUMBER_SINGULAR; Some CASE_PREPOSITIONAL; Some GENDER_FEMININE; Some ANIMALITY_INANIMATE], 131);
  ([Some PARTICIPLE_FORM_FULL; Some TIME_FUTURE; Some NUMBER_PLURAL; Some CASE_NOMINATIVE; None; Some ANIMALITY_ANIMATE], 132);
  ([Some PARTICIPLE_FORM_FULL; Some TIME_FUTURE; Some NUMBER_PLURAL; Some CASE_NOMINATIVE; None; Some ANIMALITY_INANIMATE], 133);
  ([Some PARTICIPLE_FORM_FULL; Some TIME_FUTURE; Some NUMBER_PLURAL; Some CASE_GENITIVE; None; Some ANIMALITY_ANIMATE], 134);
  ([Some PARTICIPLE_FORM_FULL; Some TIME_FUTURE; Some NUMBER_PLURAL; Some CASE_GENITIVE; None; Some ANIMALITY_INANIMATE], 135);
  ([Some PARTICIPLE_FORM_FULL; Some TIME_FUTURE; Some NUMBER_PLURAL; Some CASE_DATIVE; None; Some ANIMALITY_ANIMATE], 136);
  ([Some PARTICIPLE_FORM_FULL; Some TIME_FUTURE; Some NUMBER_PLURAL; Some CASE_DATIVE; None; Some ANIMALITY_INANIMATE], 137);
  ([Some PARTICIPLE_FORM_FULL; Some TIME_FUTURE; Some NUMBER_PLURAL; Some CASE_ACCUSATIVE; None; Some ANIMALITY_ANIMATE], 138);
  ([Some PARTICIPLE_FORM_FULL; Some TIME_FUTURE; Some NUMBER_PLURAL; Some CASE_ACCUSATIVE; None; Some ANIMALITY_INANIMATE], 139);
  ([Some PARTICIPLE_FORM_FULL; Some TIME_FUTURE; Some NUMBER_PLURAL; Some CASE_INSTRUMENTAL; None; Some ANIMALITY_ANIMATE], 140);
  ([Some PARTICIPLE_FORM_FULL; Some TIME_FUTURE; Some NUMBER_PLURAL; Some CASE_INSTRUMENTAL; None; Some ANIMALITY_INANIMATE], 141);
  ([Some PARTICIPLE_FORM_FULL; Some TIME_FUTURE; Some NUMBER_PLURAL; Some CASE_PREPOSITIONAL; None; Some ANIMALITY_ANIMATE], 142);
  ([Some PARTICIPLE_FORM_FULL; Some TIME_FUTURE; Some NUMBER_PLURAL; Some CASE_PREPOSITIONAL; None; Some ANIMALITY_INANIMATE], 143);
  ([Some PARTICIPLE_FORM_SHORT; None; Some NUMBER_SINGULAR; None; Some GENDER_MASCULINE; None], 144);
  ([Some PARTICIPLE_FORM_SHORT; None; Some NUMBER_SINGULAR; None; Some GENDER_NEUTER; None], 145);
  ([Some PARTICIPLE_FORM_SHORT; None; Some NUMBER_SINGULAR; None; Some GENDER_FEMININE; None], 146);
  ([Some PARTICIPLE_FORM_SHORT; None; Some NUMBER_PLURAL; None; None; None], 147)
].

(** utg/migrations/m_0007_reduce_words_forms.py:951-951 *)
Definition m7_NEW_CACHES_INTEGER : dict key nat := dict_literal [
  ([], 0)
].

(** utg/migrations/m_0007_reduce_words_forms.py:952-952 *)
Definition m7_NEW_CACHES_TEXT : dict key nat := dict_literal [
  ([], 0)
].

(** utg/migrations/m_0007_reduce_words_forms.py:953-955 *)
Definition m7_NEW_CACHES_PREPOSITION : dict key nat := dict_literal [
  ([Some PREPOSITION_FORM_NORMAL], 0);
  ([Some PREPOSITION_FORM_ALTERNATIVE], 1);
  ([Some PREPOSITION_FORM_SPECIAL], 2)
].

(** utg/migrations/m_0007_reduce_words_forms.py:592 *)
Definition m7_NEW_CACHES (t : word_type) : dict key nat :=
  match t with
  | WT_NOUN => m7_NEW_CACHES_NOUN
  | WT_ADJECTIVE => m7_NEW_CACHES_ADJECTIVE
  | WT_PRONOUN => m7_NEW_CACHES_PRONOUN
  | WT_VERB => m7_NEW_CACHES_VERB
  | WT_PARTICIPLE => m7_NEW_CACHES_PARTICIPLE
  | WT_INTEGER => m7_NEW_CACHES_INTEGER
  | WT_TEXT => m7_NEW_CACHES_TEXT
  | WT_PREPOSITION => m7_NEW_CACHES_PREPOSITION
  end.

(** utg/migrations/m_0008_lower_animiality_nearest_priority.py:29-46 *)
Definition m8_OLD_CACHES_NOUN : dict key nat := dict_literal [
  ([Some NOUN_FORM_NORMAL; Some NUMBER_SINGULAR; Some CASE_NOMINATIVE], 0);
  ([Some NOUN_FORM_NORMAL; Some NUMBER_SINGULAR; Some CASE_GENITIVE], 1);
  ([Some NOUN_FORM_NORMAL; Some NUMBER_SINGULAR; Some CASE_DATIVE], 2);
  ([Some NOUN_FORM_NORMAL; Some NUMBER_SINGULAR; Some CASE_ACCUSATIVE], 3);
  ([Some NOUN_FORM_NORMAL; Some NUMBER_SINGULAR; Some CASE_INSTRUMENTAL], 4);
  ([Some NOUN_FORM_NORMAL; Some NUMBER_SINGULAR; Some CASE_PREPOSITIONAL], 5);
  ([Some NOUN_FORM_NORMAL; Some NUMBER_PLURAL; Some CASE_NOMINATIVE], 6);
  ([Some NOUN_FORM_NORMAL; Some NUMBER_PLURAL; Some CASE_GENITIVE], 7);
  ([Some NOUN_FORM_NORMAL; Some NUMBER_PLURAL; Some CASE_DATIVE], 8);
  ([Some NOUN_FORM_NORMAL; Some NUMBER_PLURAL; Some CASE_ACCUSATIVE], 9);
  ([Some NOUN_FORM_NORMAL; Some NUMBER_PLURAL; Some CASE_INSTRUMENTAL], 10);
  ([Some NOUN_FORM_NORMAL; Some NUMBER_PLURAL; Some CASE_PREPOSITIONAL], 11);
  ([Some NOUN_FORM_COUNTABLE; Some NUMBER_PLURAL; Some CASE_NOMINATIVE], 12);
  ([Some NOUN_FORM_COUNTABLE; Some NUMBER_PLURAL; Some CASE_GENITIVE], 13);
  ([Some NOUN_FORM_COUNTABLE; Some NUMBER_PLURAL; Some CASE_DATIVE], 14);
  ([Some NOUN_FORM_COUNTABLE; Some NUMBER_PLURAL; Some CASE_ACCUSATIVE], 15);
  ([Some NOUN_FORM_COUNTABLE; Some NUMBER_PLURAL; Some CASE_INSTRUMENTAL], 16);
  ([Some NOUN_FORM_COUNTABLE; Some NUMBER_PLURAL; Some CASE_PREPOSITIONAL], 17)
].

(** utg/migrations/m_0008_lower_animiality_nearest_priority.py:47-147 *)
Definition m8_OLD_CACHES_ADJECTIVE : dict key nat := dict_literal [
  ([Some ADJECTIVE_FORM_FULL; Some GRADE_POSITIVE; Some ANIMALITY_ANIMATE; Some NUMBER_SINGULAR; Some CASE_NOMINATIVE; Some GENDER_MASCULINE], 0);
  ([Some ADJECTIVE_FORM_FULL; Some GRADE_POSITIVE; Some ANIMALITY_ANIMATE; Some NUMBER_SINGULAR; Some CASE_NOMINATIVE; Some GENDER_NEUTER], 2);
  ([Some ADJECTIVE_FORM_FULL; Some GRADE_POSITIVE; Some ANIMALITY_ANIMATE; Some NUMBER_SINGULAR; Some CASE_NOMINATIVE; Some GENDER_FEMININE], 4);
  ([Some ADJECTIVE_FORM_FULL; Some GRADE_POSITIVE; Some ANIMALITY_ANIMATE; Some NUMBER_SINGULAR; Some CASE_GENITIVE; Some GENDER_MASCULINE], 6);
  ([Some ADJECTIVE_FORM_FULL; Some GRADE_POSITIVE; Some ANIMALITY_ANIMATE; Some NUMBER_SINGULAR; Some CASE_GENITIVE; Some GENDER_NEUTER], 8);
  ([Some ADJECTIVE_FORM_FULL; Some GRADE_POSITIVE; Some ANIMALITY_ANIMATE; Some NUMBER_SINGULAR; Some CASE_GENITIVE; Some GENDER_FEMININE], 10);
  ([Some ADJECTIVE_FORM_FULL; Some GRADE_POSITIVE; Some ANIMALITY_ANIMATE; Some NUMBER_SINGULAR; Some CASE_DATIVE; Some GENDER_MASCULINE], 12);
  ([Some ADJECTIVE_FORM_FULL; Some GRADE_POSITIVE; Some ANIMALITY_ANIMATE; Some NUMBER_SINGULAR; Some CASE_DATIVE; Some GENDER_NEUTER], 14);
  ([Some ADJECTIVE_FORM_FULL; Some GRADE_POSITIVE; Some ANIMALITY_ANIMATE; Some NUMBER_SINGULAR; Some CASE_DATIVE; Some GENDER_FEMININE], 16);
  ([Some ADJECTIVE_FORM_FULL; Some GRADE_POSITIVE; Some ANIMALITY_ANIMATE; Some NUMBER_SINGULAR; Some CASE_ACCUSATIVE; Some GENDER_MASCULINE], 18);
  ([Some ADJECTIVE_FORM_FULL; Some GRADE_POSITIVE; Some ANIMALITY_ANIMATE; Some NUMBER_SINGULAR; Some CASE_ACCUSATIVE; Some GENDER_NEUTER], 20);
  ([Some ADJECTIVE_FORM_FULL; Some GRADE_POSITIVE; Some ANIMALITY_ANIMATE; Some NUMBER_SINGULAR; Some CASE_ACCUSATIVE; Some GENDER_FEMININE], 22);
  ([Some ADJECTIVE_FORM_FULL; Some GRADE_POSITIVE; Some ANIMALITY_ANIMATE; Some NUMBER_SINGULAR; Some CASE_INSTRUMENTAL; Some GENDER_MASCULINE], 24);
  ([Some ADJECTIVE_FORM_FULL; Some GRADE_POSITIVE; Some ANIMALITY_ANIMATE; Some NUMBER_SINGULAR; Some CASE_INSTRUMENTAL; Some GENDER_NEUTER], 26);
  ([Some ADJECTIVE_FORM_FULL; Some GRADE_POSITIVE; Some ANIMALITY_ANIMATE; Some NUMBER_SINGULAR; Some CASE_INSTRUMENTAL; Some GENDER_FEMININE], 28);
  ([Some ADJECTIVE_FORM_FULL; Some GRADE_POSITIVE; Some ANIMALITY_ANIMATE; Some NUMBER_SINGULAR; Some CASE_PREPOSITIONAL; Some GENDER_MASCULINE], 30);
  ([Some ADJECTIVE_FORM_FULL; Some GRADE_POSITIVE; Some ANIMALITY_ANIMATE; Some NUMBER_SINGULAR; Some CASE_PREPOSITIONAL; Some GENDER_NEUTER], 32);
  ([Some ADJECTIVE_FORM_FULL; Some GRADE_POSITIVE; Some ANIMALITY_ANIMATE; Some NUMBER_SINGULAR; Some CASE_PREPOSITIONAL; Some GENDER_FEMININE], 34);
  ([Some ADJECTIVE_FORM_FULL; Some GRADE_POSITIVE; Some ANIMALITY_ANIMATE; Some NUMBER_PLURAL; Some CASE_NOMINATIVE; None], 36);
  ([Some ADJECTIVE_FORM_FULL; Some GRADE_POSITIVE; Some ANIMALITY_ANIMATE; Some NUMBER_PLURAL; Some CASE_GENITIVE; None], 38);
  ([Some ADJECTIVE_FORM_FULL; Some GRADE_POSITIVE; Some ANIMALITY_ANIMATE; Some NUMBER_PLURAL; Some CASE_DATIVE; None], 40);
  ([Some ADJECTIVE_FORM_FULL; Some GRADE_POSITIVE; Some ANIMALITY_ANIMATE; Some NUMBER_PLURAL; Some CASE_ACCUSATIVE; None], 42);
  ([Some ADJECTIVE_FORM_FULL; Some GRADE_POSITIVE; Some ANIMALITY_ANIMATE; Some NUMBER_PLURAL; Some CASE_INSTRUMENTAL; None], 44);
  ([Some ADJECTIVE_FORM_FULL; Some GRADE_POSITIVE; Some ANIMALITY_ANIMATE; Some NUMBER_PLURAL; Some CASE_PREPOSITIONAL; None], 46);
  ([Some ADJECTIVE_FORM_FULL; Some GRADE_POSITIVE; Some ANIMALITY_INANIMATE; Some NUMBER_SINGULAR; Some CASE_NOMINATIVE; Some GENDER_MASCULINE], 1);
  ([Some ADJECTIVE_FORM_FULL; Some GRADE_POSITIVE; Some ANIMALITY_INANIMATE; Some NUMBER_SINGULAR; Some CASE_NOMINATIVE; Some GENDER_NEUTER], 3);
  ([Some ADJECTIVE_FORM_FULL; Some GRADE_POSITIVE; Some ANIMALITY_INANIMATE; Some NUMBER_SINGULAR; Some CASE_NOMINATIVE; Some GENDER_FEMININE], 5);
  ([Some ADJECTIVE_FORM_FULL; Some GRADE_POSITIVE; Some ANIMALITY_INANIMATE; Some NUMBER_SINGULAR; Some CASE_GENITIVE; Some GENDER_MASCULINE], 7);
  ([Some ADJECTIVE_FORM_FULL; Some GRADE_POSITIVE; Some ANIMALITY_INANIMATE; Some NUMBER_SINGULAR; Some CASE_GENITIVE; Some GENDER_NEUTER], 9);
  ([Some ADJECTIVE_FORM_FULL; Some GRADE_POSITIVE; Some ANIMALITY_INANIMATE; Some NUMBER_SINGULAR; Some CASE_GENITIVE; Some GENDER_FEMININE], 11);
  ([Some ADJECTIVE_FORM_FULL; Some GRADE_POSITIVE; Some ANIMALITY_INANIMATE; Some NUMBER_SINGULAR; Some CASE_DATIVE; Some GENDER_MASCULINE], 13);
  ([Some ADJECTIVE_FORM_FULL; Some GRADE_POSITIVE; Some ANIMALITY_INANIMATE; Some NUMBER_SINGULAR; Some CASE_DATIVE; Some GENDER_NEUTER], 15);
  ([Some ADJECTIVE_FORM_FULL; Some GRADE_POSITIVE; Some ANIMALITY_INANIMATE; Some NUMBER_SINGULAR; Some CASE_DATIVE; Some GENDER_FEMININE], 17);
  ([Some ADJECTIVE_FORM_FULL; Some GRADE_POSITIVE; Some ANIMALITY_INANIMATE; Some NUMBER_SINGULAR; Some CASE_ACCUSATIVE; Some GENDER_MASCULINE], 19);
  ([Some ADJECTIVE_FORM_FULL; Some GRADE_POSITIVE; Some ANIMALITY_INANIMATE; Some NUMBER_SINGULAR; Some CASE_ACCUSATIVE; Some GENDER_NEUTER], 21);
  ([Some ADJECTIVE_FORM_FULL; Some GRADE_POSITIVE; Some ANIMALITY_INANIMATE; Some NUMBER_SINGULAR; Some CASE_ACCUSATIVE; Some GENDER_FEMININE], 23);
  ([Some ADJECTIVE_FORM_FULL; Some GRADE_POSITIVE; Some ANIMALITY_INANIMATE; Some NUMBER_SINGULAR; Some CASE_INSTRUMENTAL; Some GENDER_MASCULINE], 25);
  ([Some ADJECTIVE_FORM_FULL; Some GRADE_POSITIVE; Some ANIMALITY_INANIMATE; Some NUMBER_SINGULAR; Some CASE_INSTRUMENTAL; Some GENDER_NEUTER], 27);
  ([Some ADJECTIVE_FORM_FULL; Some GRADE_POSITIVE; Some ANIMALITY_INANIMATE; Some NUMBER_SINGULAR; Some CASE_INSTRUMENTAL; Some GENDER_FEMININE], 29);
  ([Some ADJECTIVE_FORM_FULL; Some GRADE_POSITIVE; Some ANIMALITY_INANIMATE; Some NUMBER_SINGULAR; Some CASE_PREPOSITIONAL; Some GENDER_MASCULINE], 31);
  ([Some ADJECTIVE_FORM_FULL; Some GRADE_POSITIVE; Some ANIMALITY_INANIMATE; Some NUMBER_SINGULAR; Some CASE_PREPOSITIONAL; Some GENDER_NEUTER], 33);
  ([Some ADJECTIVE_FORM_FULL; Some GRADE_POSITIVE; Some ANIMALITY_INANIMATE; Some NUMBER_SINGULAR; Some CASE_PREPOSITIONAL; Some GENDER_FEMININE], 35);
  ([Some ADJECTIVE_FORM_FULL; Some GRADE_POSITIVE; Some ANIMALITY_INANIMATE; Some NUMBER_PLURAL; Some CASE_NOMINATIVE; None], 37);
  ([Some ADJECTIVE_FORM_FULL; Some GRADE_POSITIVE; Some ANIMALITY_INANIMATE; Some NUMBER_PLURAL; Some CASE_GENITIVE; None], 39);
  ([Some ADJECTIVE_FORM_FULL; Some GRADE_POSITIVE; Some ANIMALITY_INANIMATE; Some NUMBER_PLURAL; Some CASE_DATIVE; None], 41);
  ([Some ADJECTIVE_FORM_FULL; Some GRADE_POSITIVE; Some ANIMALITY_INANIMATE; Some NUMBER_PLURAL; Some CASE_ACCUSATIVE; None], 43);
  ([Some ADJECTIVE_FORM_FULL; Some GRADE_POSITIVE; Some ANIMALITY_INANIMATE; Some NUMBER_PLURAL; Some CASE_INSTRUMENTAL; None], 45);
  ([Some ADJECTIVE_FORM_FULL; Some GRADE_POSITIVE; Some ANIMALITY_INANIMATE; Some NUMBER_PLURAL; Some CASE_PREPOSITIONAL; None], 47);
  ([Some ADJECTIVE_FORM_FULL; Some GRADE_COMPARATIVE; None; None; None; None], 48);
  ([Some ADJECTIVE_FORM_FULL; Some GRADE_SUPERLATIVE; Some ANIMALITY_ANIMATE; Some NUMBER_SINGULAR; Some CASE_NOMINATIVE; Some GENDER_MASCULINE], 49);
  ([Some ADJECTIVE_FORM_FULL; Some GRADE_SUPERLATIVE; Some ANIMALITY_ANIMATE; Some NUMBER_SINGULAR; Some CASE_NOMINATIVE; Some GENDER_NEUTER], 51);
  ([Some ADJECTIVE_FORM_FULL; Some GRADE_SUPERLATIVE; Some ANIMALITY_ANIMATE; Some NUMBER_SINGULAR; Some CASE_NOMINATIVE; Some GENDER_FEMININE], 53);
  ([Some ADJECTIVE_FORM_FULL; Some GRADE_SUPERLATIVE; Some ANIMALITY_ANIMATE; Some NUMBER_SINGULAR; Some CASE_GENITIVE; Some GENDER_MASCULINE], 55);
  ([Some ADJECTIVE_FORM_FULL; Some GRADE_SUPERLATIVE; Some ANIMALITY_ANIMATE; Some NUMBER_SINGULAR; Some CASE_GENITIVE; Some GENDER_NEUTER], 57);
  ([Some ADJECTIVE_FORM_FULL; Some GRADE_SUPERLATIVE; Some ANIMALITY_ANIMATE; Some NUMBER_SINGULAR; Some CASE_GENITIVE; Some GENDER_FEMININE], 59);
  ([Some ADJECTIVE_FORM_FULL; Some GRADE_SUPERLATIVE; Some ANIMALITY_ANIMATE; Some NUMBER_SINGULAR; Some CASE_DATIVE; Some GENDER_MASCULINE], 61);
  ([Some ADJECTIVE_FORM_FULL; Some GRADE_SUPERLATIVE; Some ANIMALITY_ANIMATE; Some NUMBER_SINGULAR; Some CASE_DATIVE; Some GENDER_NEUTER], 63);
  ([Some ADJECTIVE_FORM_FULL; Some GRADE_SUPERLATIVE; Some ANIMALITY_ANIMATE; Some NUMBER_SINGULAR; Some CASE_DATIVE; Some GENDER_FEMININE], 65);
  ([Some ADJECTIVE_FORM_FULL; Some GRADE_SUPERLATIVE; Some ANIMALITY_ANIMATE; Some NUMBER_SINGULAR; Some CASE_ACCUSATIVE; Some GENDER_MASCULINE], 67);
  ([Some ADJECTIVE_FORM_FULL; Some GRADE_SUPERLATIVE; Some ANIMALITY_ANIMATE; Some NUMBER_SINGULAR; Some CASE_ACCUSATIVE; Some GENDER_NEUTER], 69);
  ([Some ADJECTIVE_FORM_FULL; Some GRADE_SUPERLATIVE; Some ANIMALITY_ANIMATE; Some NUMBER_SINGULAR; Some CASE_ACCUSATIVE; Some GENDER_FEMININE], 71);
  ([Some ADJECTIVE_FORM_FULL; Some GRADE_SUPERLATIVE; Some ANIMALITY_ANIMATE; Some NUMBER_SINGULAR; Some CASE_INSTRUMENTAL; Some GENDER_MASCULINE], 73);
  ([Some ADJECTIVE_FORM_FULL; Some GRADE_SUPERLATIVE; Some ANIMALITY_ANIMATE; Some NUMBER_SINGULAR; Some CASE_INSTRUMENTAL; Some GENDER_NEUTER], 75);
  ([Some ADJECTIVE_FORM_FULL; Some GRADE_SUPERLATIVE; Some ANIMALITY_ANIMATE; Some NUMBER_SINGULAR; Some CASE_INSTRUMENTAL; Some GENDER_FEMININE], 77);
  ([Some ADJECTIVE_FORM_FULL; Some GRADE_SUPERLATIVE; Some ANIMALITY_ANIMATE; Some NUMBER_SINGULAR; Some CASE_PREPOSITIONAL; Some GENDER_MASCULINE], 79);
  ([Some ADJECTIVE_FORM_FULL; Some GRADE_SUPERLATIVE; Some ANIMALITY_ANIMATE; Some NUMBER_SINGULAR; Some CASE_PREPOSITIONAL; Some GENDER_NEUTER], 81);
  ([Some ADJECTIVE_FORM_FULL; Some GRADE_SUPERLATIVE; Some ANIMALITY_ANIMATE; Some NUMBER_SINGULAR; Some CASE_PREPOSITIONAL; Some GENDER_FEMININE], 83);
  ([Some ADJECTIVE_FORM_FULL; Some GRADE_SUPERLATIVE; Some ANIMALITY_ANIMATE; Some NUMBER_PLURAL; Some CASE_NOMINATIVE; None], 85);
  ([Some ADJECTIVE_FORM_FULL; Some GRADE_SUPERLATIVE; Some ANIMALITY_ANIMATE; Some NUMBER_PLURAL; Some CASE_GENITIVE; None], 87);
  ([Some ADJECTIVE_FORM_FULL; Some GRADE_SUPERLATIVE; Some ANIMALITY_ANIMATE; Some NUMBER_PLURAL; Some CASE_DATIVE; None], 89);
  ([Some ADJECTIVE_FORM_FULL; Some GRADE_SUPERLATIVE; Some ANIMALITY_ANIMATE; Some NUMBER_PLURAL; Some CASE_ACCUSATIVE; None], 91);
  ([Some ADJECTIVE_FORM_FULL; Some GRADE_SUPERLATIVE; Some ANIMALITY_ANIMATE; Some NUMBER_PLURAL; Some CASE_INSTRUMENTAL; None], 93);
  ([Some ADJECTIVE_FORM_FULL; Some GRADE_SUPERLATIVE; Some ANIMALITY_ANIMATE; Some NUMBER_PLURAL; Some CASE_PREPOSITIONAL; None], 95);
  ([Some ADJECTIVE_FORM_FULL; Some GRADE_SUPERLATIVE; Some ANIMALITY_INANIMATE; Some NUMBER_SINGULAR; Some CASE_NOMINATIVE; Some GENDER_MASCULINE], 50);
  ([Some ADJECTIVE_FORM_FULL; Some GRADE_SUPERLATIVE; Some ANIMALITY_INANIMATE; Some NUMBER_SINGULAR; Some CASE_NOMINATIVE; Some GENDER_NEUTER], 52);
  ([Some ADJECTIVE_FORM_FULL; Some GRADE_SUPERLATIVE; Some ANIMALITY_INANIMATE; Some NUMBER_SINGULAR; Some CASE_NOMINATIVE; Some GENDER_FEMININE], 54);
  ([Some ADJECTIVE_FORM_FULL; Some GRADE_SUPERLATIVE; Some ANIMALITY_INANIMATE; Some NUMBER_SINGULAR; Some CASE_GENITIVE; Some GENDER_MASCULINE], 56);
  ([Some ADJECTIVE_FORM_FULL; Some GRADE_SUPERLATIVE; Some ANIMALITY_INANIMATE; Some NUMBER_SINGULAR; Some CASE_GENITIVE; Some GENDER_NEUTER], 58);
  ([Some ADJECTIVE_FORM_FULL; Some GRADE_SUPERLATIVE; Some ANIMALITY_INANIMATE; Some NUMBER_SINGULAR; Some CASE_GENITIVE; Some GENDER_FEMININE], 60);
  ([Some ADJECTIVE_FORM_FULL; Some GRADE_SUPERLATIVE; Some ANIMALITY_INANIMATE; Some NUMBER_SINGULAR; Some CASE_DATIVE; Some GENDER_MASCULINE], 62);
  ([Some ADJECTIVE_FORM_FULL; Some GRADE_SUPERLATIVE; Some ANIMALITY_INANIMATE; Some NUMBER_SINGULAR; Some CASE_DATIVE; Some GENDER_NEUTER], 64);
  ([Some ADJECTIVE_FORM_FULL; Some GRADE_SUPERLATIVE; Some ANIMALITY_INANIMATE; Some NUMBER_SINGULAR; Some CASE_DATIVE; Some GENDER_FEMININE], 66);
  ([Some ADJECTIVE_FORM_FULL; Some GRADE_SUPERLATIVE; Some ANIMALITY_INANIMATE; Some NUMBER_SINGULAR; Some CASE_ACCUSATIVE; Some GENDER_MASCULINE], 68);
  ([Some ADJECTIVE_FORM_FULL; Some GRADE_SUPERLATIVE; Some ANIMALITY_INANIMATE; Some NUMBER_SINGULAR; Some CASE_ACCUSATIVE; Some GENDER_NEUTER], 70);
  ([Some ADJECTIVE_FORM_FULL; Some GRADE_SUPERLATIVE; Some ANIMALITY_INANIMATE; Some NUMBER_SINGULAR; Some CASE_ACCUSATIVE; Some GENDER_FEMININE], 72);
  ([Some ADJECTIVE_FORM_FULL; Some GRADE_SUPERLATIVE; Some ANIMALITY_INANIMATE; Some NUMBER_SINGULAR; Some CASE_INSTRUMENTAL; Some GENDER_MASCULINE], 74);
  ([Some ADJECTIVE_FORM_FULL; Some GRADE_SUPERLATIVE; Some ANIMALITY_INANIMATE; Some NUMBER_SINGULAR; Some CASE_INSTRUMENTAL; Some GENDER_NEUTER], 76);
  ([Some ADJECTIVE_FORM_FULL; Some GRADE_SUPERLATIVE; Some ANIMALITY_INANIMATE; Some NUMBER_SINGULAR; Some CASE_INSTRUMENTAL; Some GENDER_FEMININE], 78);
  ([Some ADJECTIVE_FORM_FULL; Some GRADE_SUPERLATIVE; Some ANIMALITY_INANIMATE; Some NUMBER_SINGULAR; Some CASE_PREPOSITIONAL; Some GENDER_MASCULINE], 80);
  ([Some ADJECTIVE_FORM_FULL; Some GRADE_SUPERLATIVE; Some ANIMALITY_INANIMATE; Some NUMBER_SINGULAR; Some CASE_PREPOSITIONAL; Some GENDER_NEUTER], 82);
  ([Some ADJECTIVE_FORM_FULL; Some GRADE_SUPERLATIVE; Some ANIMALITY_INANIMATE; Some NUMBER_SINGULAR; Some CASE_PREPOSITIONAL; Some GENDER_FEMININE], 84);
  ([Some ADJECTIVE_FORM_FULL; Some GRADE_SUPERLATIVE; Some ANIMALITY_INANIMATE; Some NUMBER_PLURAL; Some CASE_NOMINATIVE; None], 86);
  ([Some ADJECTIVE_FORM_FULL; Some GRADE_SUPERLATIVE; Some ANIMALITY_INANIMATE; Some NUMBER_PLURAL; Some CASE_GENITIVE; None], 88);
  ([Some ADJECTIVE_FORM_FULL; Some GRADE_SUPERLATIVE; Some ANIMALITY_INANIMATE; Some NUMBER_PLURAL; Some CASE_DATIVE; None], 90);
  ([Some ADJECTIVE_FORM_FULL; Some GRADE_SUPERLATIVE; Some ANIMALITY_INANIMATE; Some NUMBER_PLURAL; Some CASE_ACCUSATIVE; None], 92);
  ([Some ADJECTIVE_FORM_FULL; Some GRADE_SUPERLATIVE; Some ANIMALITY_INANIMATE; Some NUMBER_PLURAL; Some CASE_INSTRUMENTAL; None], 94);
  ([Some ADJECTIVE_FORM_FULL; Some GRADE_SUPERLATIVE; Some ANIMALITY_INANIMATE; Some NUMBER_PLURAL; Some CASE_PREPOSITIONAL; None], 96);
  ([Some ADJECTIVE_FORM_SHORT; None; None; Some NUMBER_SINGULAR; None; Some GENDER_MASCULINE], 97);
  ([Some ADJECTIVE_FORM_SHORT; None; None; Some NUMBER_SINGULAR; None; Some GENDER_NEUTER], 98);
  ([Some ADJECTIVE_FORM_SHORT; None; None; Some NUMBER_SINGULAR; None; Some GENDER_FEMININE], 99);
  ([Some ADJECTIVE_FORM_SHORT; None; None; Some NUMBER_PLURAL; None; None], 100)
].

(** utg/migrations/m_0008_lower_animiality_nearest_priority.py:148-219 *)
Definition m8_OLD_CACHES_PRONOUN : dict key nat := dict_literal [
  ([Some NUMBER_SINGULAR; Some CASE_NOMINATIVE; Some PERSON_FIRST; Some GENDER_MASCULINE], 0);
  ([Some NUMBER_SINGULAR; Some CASE_NOMINATIVE; Some PERSON_FIRST; Some GENDER_NEUTER], 1);
  ([Some NUMBER_SINGULAR; Some CASE_NOMINATIVE; Some PERSON_FIRST; Some GENDER_FEMININE], 2);
  ([Some NUMBER_SINGULAR; Some CASE_NOMINATIVE; Some PERSON_SECOND; Some GENDER_MASCULINE], 3);
  ([Some NUMBER_SINGULAR; Some CASE_NOMINATIVE; Some PERSON_SECOND; Some GENDER_NEUTER], 4);
  ([Some NUMBER_SINGULAR; Some CASE_NOMINATIVE; Some PERSON_SECOND; Some GENDER_FEMININE], 5);
  ([Some NUMBER_SINGULAR; Some CASE_NOMINATIVE; Some PERSON_THIRD; Some GENDER_MASCULINE], 6);
  ([Some NUMBER_SINGULAR; Some CASE_NOMINATIVE; Some PERSON_THIRD; Some GENDER_NEUTER], 7);
  ([Some NUMBER_SINGULAR; Some CASE_NOMINATIVE; Some PERSON_THIRD; Some GENDER_FEMININE], 8);
  ([Some NUMBER_SINGULAR; Some CASE_GENITIVE; Some PERSON_FIRST; Some GENDER_MASCULINE], 9);
  ([Some NUMBER_SINGULAR; Some CASE_GENITIVE; Some PERSON_FIRST; Some GENDER_NEUTER], 10);
  ([Some NUMBER_SINGULAR; Some CASE_GENITIVE; Some PERSON_FIRST; Some GENDER_FEMININE], 11);
  ([Some NUMBER_SINGULAR; Some CASE_GENITIVE; Some PERSON_SECOND; Some GENDER_MASCULINE], 12);
  ([Some NUMBER_SINGULAR; Some CASE_GENITIVE; Some PERSON_SECOND; Some GENDER_NEUTER], 13);
  ([Some NUMBER_SINGULAR; Some CASE_GENITIVE; Some PERSON_SECOND; Some GENDER_FEMININE], 14);
  ([Some NUMBER_SINGULAR; Some CASE_GENITIVE; Some PERSON_THIRD; Some GENDER_MASCULINE], 15);
  ([Some NUMBER_SINGULAR; Some CASE_GENITIVE; Some PERSON_THIRD; Some GENDER_NEUTER], 16);
  ([Some NUMBER_SINGULAR; Some CASE_GENITIVE; Some PERSON_THIRD; Some GENDER_FEMININE], 17);
  ([Some NUMBER_SINGULAR; Some CASE_DATIVE; Some PERSON_FIRST; Some GENDER_MASCULINE], 18);
  ([Some NUMBER_SINGULAR; Some CASE_DATIVE; Some PERSON_FIRST; Some GENDER_NEUTER], 19);
  ([Some NUMBER_SINGULAR; Some CASE_DATIVE; Some PERSON_FIRST; Some GENDER_FEMININE], 20);
  ([Some NUMBER_SINGULAR; Some CASE_DATIVE; Some PERSON_SECOND; Some GENDER_MASCULINE], 21);
  ([Some NUMBER_SINGULAR; Some CASE_DATIVE; Some PERSON_SECOND; Some GENDER_NEUTER], 22);
  ([Some NUMBER_SINGULAR; Some CASE_DATIVE; Some PERSON_SECOND; Some GENDER_FEMININE], 23);
  ([Some NUMBER_SINGULAR; Some CASE_DATIVE; Some PERSON_THIRD; Some GENDER_MASCULINE], 24);
  ([Some NUMBER_SINGULAR; Some CASE_DATIVE; Some PERSON_THIRD; Some GENDER_NEUTER], 25);
  ([Some NUMBER_SINGULAR; Some CASE_DATIVE; Some PERSON_THIRD; Some GENDER_FEMININE], 26);
  ([Some NUMBER_SINGULAR; Some CASE_ACCUSATIVE; Some PERSON_FIRST; Some GENDER_MASCULINE], 27);
  ([Some NUMBER_SINGULAR; Some CASE_ACCUSATIVE; Some PERSON_FIRST; Some GENDER_NEUTER], 28);
  ([Some NUMBER_SINGULAR; Some CASE_ACCUSATIVE; Some PERSON_FIRST; Some GENDER_FEMININE], 29);
  ([Some NUMBER_SINGULAR; Some CASE_ACCUSATIVE; Some PERSON_SECOND; Some GENDER_MASCULINE], 30);
  ([Some NUMBER_SINGULAR; Some CASE_ACCUSATIVE; Some PERSON_SECOND; Some GENDER_NEUTER], 31);
  ([Some NUMBER_SINGULAR; Some CASE_ACCUSATIVE; Some PERSON_SECOND; Some GENDER_FEMININE], 32);
  ([Some NUMBER_SINGULAR; Some CASE_ACCUSATIVE; Some PERSON_THIRD; Some GENDER_MASCULINE], 33);
  ([Some NUMBER_SINGULAR; Some CASE_ACCUSATIVE; Some PERSON_THIRD; Some GENDER_NEUTER], 34);
  ([Some NUMBER_SINGULAR; Some CASE_ACCUSATIVE; Some PERSON_THIRD; Some GENDER_FEMININE], 35);
  ([Some NUMBER_SINGULAR; Some CASE_INSTRUMENTAL; Some PERSON_FIRST; Some GENDER_MASCULINE], 36);
  ([Some NUMBER_SINGULAR; Some CASE_INSTRUMENTAL; Some PERSON_FIRST; Some GENDER_NEUTER], 37);
  ([Some NUMBER_SINGULAR; Some CASE_INSTRUMENTAL; Some PERSON_FIRST; Some GENDER_FEMININE], 38);
  ([Some NUMBER_SINGULAR; Some CASE_INSTRUMENTAL; Some PERSON_SECOND; Some GENDER_MASCULINE], 39);
  ([Some NUMBER_SINGULAR; Some CASE_INSTRUMENTAL; Some PERSON_SECOND; Some GENDER_NEUTER], 40);
  ([Some NUMBER_SINGULAR; Some CASE_INSTRUMENTAL; Some PERSON_SECOND; Some GENDER_FEMININE], 41);
  ([Some NUMBER_SINGULAR; Some CASE_INSTRUMENTAL; Some PERSON_THIRD; Some GENDER_MASCULINE], 42);
  ([Some NUMBER_SINGULAR; Some CASE_INSTRUMENTAL; Some PERSON_THIRD; Some GENDER_NEUTER], 43);
  ([Some NUMBER_SINGULAR; Some CASE_INSTRUMENTAL; Some PERSON_THIRD; Some GENDER_FEMININE], 44);
  ([Some NUMBER_SINGULAR; Some CASE_PREPOSITIONAL; Some PERSON_FIRST; Some GENDER_MASCULINE], 45);
  ([Some NUMBER_SINGULAR; Some CASE_PREPOSITIONAL; Some PERSON_FIRST; Some GENDER_NEUTER], 46);
  ([Some NUMBER_SINGULAR; Some CASE_PREPOSITIONAL; Some PERSON_FIRST; Some GENDER_FEMININE], 47);
  ([Some NUMBER_SINGULAR; Some CASE_PREPOSITIONAL; Some PERSON_SECOND; Some GENDER_MASCULINE], 48);
  ([Some NUMBER_SINGULAR; Some CASE_PREPOSITIONAL; Some PERSON_SECOND; Some GENDER_NEUTER], 49);
  ([Some NUMBER_SINGULAR; Some CASE_PREPOSITIONAL; Some PERSON_SECOND; Some GENDER_FEMININE], 50);
  ([Some NUMBER_SINGULAR; Some CASE_PREPOSITIONAL; Some PERSON_THIRD; Some GENDER_MASCULINE], 51);
  ([Some NUMBER_SINGULAR; Some CASE_PREPOSITIONAL; Some PERSON_THIRD; Some GENDER_NEUTER], 52);
  ([Some NUMBER_SINGULAR; Some CASE_PREPOSITIONAL; Some PERSON_THIRD; Some GENDER_FEMININE], 53);
  ([Some NUMBER_PLURAL; Some CASE_NOMINATIVE; Some PERSON_FIRST; None], 54);
  ([Some NUMBER_PLURAL; Some CASE_NOMINATIVE; Some PERSON_SECOND; None], 55);
  ([Some NUMBER_PLURAL; Some CASE_NOMINATIVE; Some PERSON_THIRD; None], 56);
  ([Some NUMBER_PLURAL; Some CASE_GENITIVE; Some PERSON_FIRST; None], 57);
  ([Some NUMBER_PLURAL; Some CASE_GENITIVE; Some PERSON_SECOND; None], 58);
  ([Some NUMBER_PLURAL; Some CASE_GENITIVE; Some PERSON_THIRD; None], 59);
  ([Some NUMBER_PLURAL; Some CASE_DATIVE; Some PERSON_FIRST; None], 60);
  ([Some NUMBER_PLURAL; Some CASE_DATIVE; Some PERSON_SECOND; None], 61);
  ([Some NUMBER_PLURAL; Some CASE_DATIVE; Some PERSON_THIRD; None], 62);
  ([Some NUMBER_PLURAL; Some CASE_ACCUSATIVE; Some PERSON_FIRST; None], 63);
  ([Some NUMBER_PLURAL; Some CASE_ACCUSATIVE; Some PERSON_SECOND; None], 64);
  ([Some NUMBER_PLURAL; Some CASE_ACCUSATIVE; Some PERSON_THIRD; None], 65);
  ([Some NUMBER_PLURAL; Some CASE_INSTRUMENTAL; Some PERSON_FIRST; None], 66);
  ([Some NUMBER_PLURAL; Some CASE_INSTRUMENTAL; Some PERSON_SECOND; None], 67);
  ([Some NUMBER_PLURAL; Some CASE_INSTRUMENTAL; Some PERSON_THIRD; None], 68);
  ([Some NUMBER_PLURAL; Some CASE_PREPOSITIONAL; Some PERSON_FIRST; None], 69);
  ([Some NUMBER_PLURAL; Some CASE_PREPOSITIONAL; Some PERSON_SECOND; None], 70);
  ([Some NUMBER_PLURAL; Some CASE_PREPOSITIONAL; Some PERSON_THIRD; None], 71)
].

(** utg/migrations/m_0008_lower_animiality_nearest_priority.py:220-239 *)
Definition m8_OLD_CACHES_VERB : dict key nat := dict_literal [
  ([Some VERB_FORM_INFINITIVE; None; None; None; None], 0);
  ([Some VERB_FORM_INDICATIVE; Some TIME_PAST; Some NUMBER_SINGULAR; None; Some GENDER_MASCULINE], 1);
  ([Some VERB_FORM_INDICATIVE; Some TIME_PAST; Some NUMBER_SINGULAR; None; Some GENDER_NEUTER], 2);
  ([Some VERB_FORM_INDICATIVE; Some TIME_PAST; Some NUMBER_SINGULAR; None; Some GENDER_FEMININE], 3);
  ([Some VERB_FORM_INDICATIVE; Some TIME_PAST; Some NUMBER_PLURAL; None; None], 4);
  ([Some VERB_FORM_INDICATIVE; Some TIME_PRESENT; Some NUMBER_SINGULAR; Some PERSON_FIRST; None], 5);
  ([Some VERB_FORM_INDICATIVE; Some TIME_PRESENT; Some NUMBER_SINGULAR; Some PERSON_SECOND; None], 6);
  ([Some VERB_FORM_INDICATIVE; Some TIME_PRESENT; Some NUMBER_SINGULAR; Some PERSON_THIRD; None], 7);
  ([Some VERB_FORM_INDICATIVE; Some TIME_PRESENT; Some NUMBER_PLURAL; Some PERSON_FIRST; None], 8);
  ([Some VERB_FORM_INDICATIVE; Some TIME_PRESENT; Some NUMBER_PLURAL; Some PERSON_SECOND; None], 9);
  ([Some VERB_FORM_INDICATIVE; Some TIME_PRESENT; Some NUMBER_PLURAL; Some PERSON_THIRD; None], 10);
  ([Some VERB_FORM_INDICATIVE; Some TIME_FUTURE; Some NUMBER_SINGULAR; Some PERSON_FIRST; None], 11);
  ([Some VERB_FORM_INDICATIVE; Some TIME_FUTURE; Some NUMBER_SINGULAR; Some PERSON_SECOND; None], 12);
  ([Some VERB_FORM_INDICATIVE; Some TIME_FUTURE; Some NUMBER_SINGULAR; Some PERSON_THIRD; None], 13);
  ([Some VERB_FORM_INDICATIVE; Some TIME_FUTURE; Some NUMBER_PLURAL; Some PERSON_FIRST; None], 14);
  ([Some VERB_FORM_INDICATIVE; Some TIME_FUTURE; Some NUMBER_PLURAL; Some PERSON_SECOND; None], 15);
  ([Some VERB_FORM_INDICATIVE; Some TIME_FUTURE; Some NUMBER_PLURAL; Some PERSON_THIRD; None], 16);
  ([Some VERB_FORM_IMPERATIVE; None; Some NUMBER_SINGULAR; Some PERSON_SECOND; None], 17);
  ([Some VERB_FORM_IMPERATIVE; None; Some NUMBER_PLURAL; Some PERSON_FIRST; None], 18);
  ([Some VERB_FORM_IMPERATIVE; None; Some NUMBER_PLURAL; Some PERSON_SECOND; None], 19)
].

(** utg/migrations/m_0008_lower_animiality_nearest_priority.py:240-387 *)
Definition m8_OLD_CACHES_PARTICIPLE : dict key nat := dict_literal [
  ([Some PARTICIPLE_FORM_FULL; Some TIME_PAST; Some ANIMALITY_ANIMATE; Some NUMBER_SINGULAR; Some CASE_NOMINATIVE; Some GENDER_MASCULINE], 0);
  ([Some PARTICIPLE_FORM_FULL; Some TIME_PAST; Some ANIMALITY_ANIMATE; Some NUMBER_SINGULAR; Some CASE_NOMINATIVE; Some GENDER_NEUTER], 2);
  ([Some PARTICIPLE_FORM_FULL; Some TIME_PAST; Some ANIMALITY_ANIMATE; Some NUMBER_SINGULAR; Some CASE_NOMINATIVE; Some GENDER_FEMININE], 4);
  ([Some PARTICIPLE_FORM_FULL; Some TIME_PAST; Some ANIMALITY_ANIMATE; Some NUMBER_SINGULAR; Some CASE_GENITIVE; Some GENDER_MASCULINE], 6);
  ([Some PARTICIPLE_FORM_FULL; Some TIME_PAST; Some ANIMALITY_ANIMATE; Some NUMBER_SINGULAR; Some CASE_GENITIVE; Some GENDER_NEUTER], 8);
  ([Some PARTICIPLE_FORM_FULL; Some TIME_PAST; Some ANIMALITY_ANIMATE; Some NUMBER_SINGULAR; Some CASE_GENITIVE; Some GENDER_FEMININE], 10);
  ([Some PARTICIPLE_FORM_FULL; Some TIME_PAST; Some ANIMALITY_ANIMATE; Some NUMBER_SINGULAR; Some CASE_DATIVE; Some GENDER_MASCULINE], 12);
  ([Some PARTICIPLE_FORM_FULL; Some TIME_PAST; Some ANIMALITY_ANIMATE; Some NUMBER_SINGULAR; Some CASE_DATIVE; Some GENDER_NEUTER], 14);
  ([Some PARTICIPLE_FORM_FULL; Some TIME_PAST; Some ANIMALITY_ANIMATE; Some NUMBER_SINGULAR; Some CASE_DATIVE; Some GENDER_FEMININE], 16);
  ([Some PARTICIPLE_FORM_FULL; Some TIME_PAST; Some ANIMALITY_ANIMATE; Some NUMBER_SINGULAR; Some CASE_ACCUSATIVE; Some GENDER_MASCULINE], 18);
  ([Some PARTICIPLE_FORM_FULL; Some TIME_PAST; Some ANIMALITY_ANIMATE; Some NUMBER_SINGULAR; Some CASE_ACCUSATIVE; Some GENDER_NEUTER], 20);
  ([Some PARTICIPLE_FORM_FULL; Some TIME_PAST; Some ANIMALITY_ANIMATE; Some NUMBER_SINGULAR; Some CASE_ACCUSATIVE; Some GENDER_FEMININE], 22);
  ([Some PARTICIPLE_FORM_FULL; Some TIME_PAST; Some ANIMALITY_ANIMATE; Some NUMBER_SINGULAR; Some CASE_INSTRUMENTAL; Some GENDER_MASCULINE], 24);
  ([Some PARTICIPLE_FORM_FULL; Some TIME_PAST; Some ANIMALITY_ANIMATE; Some NUMBER_SINGULAR; Some CASE_INSTRUMENTAL; Some GENDER_NEUTER], 26);
  ([Some PARTICIPLE_FORM_FULL; Some TIME_PAST; Some ANIMALITY_ANIMATE; Some NUMBER_SINGULAR; Some CASE_INSTRUMENTAL; Some GENDER_FEMININE], 28);
  ([Some PARTICIPLE_FORM_FULL; Some TIME_PAST; Some ANIMALITY_ANIMATE; Some NUMBER_SINGULAR; Some CASE_PREPOSITIONAL; Some GENDER_MASCULINE], 30);
  ([Some PARTICIPLE_FORM_FULL; Some TIME_PAST; Some ANIMALITY_ANIMATE; Some NUMBER_SINGULAR; Some CASE_PREPOSITIONAL; Some GENDER_NEUTER], 32);
  ([Some PARTICIPLE_FORM_FULL; Some TIME_PAST; Some ANIMALITY_ANIMATE; Some NUMBER_SINGULAR; Some CASE_PREPOSITIONAL; Some GENDER_FEMININE], 34);
  ([Some PARTICIPLE_FORM_FULL; Some TIME_PAST; Some ANIMALITY_ANIMATE; Some NUMBER_PLURAL; Some CASE_NOMINATIVE; None], 36);
  ([Some PARTICIPLE_FORM_FULL; Some TIME_PAST; Some ANIMALITY_ANIMATE; Some NUMBER_PLURAL; Some CASE_GENITIVE; None], 38);
  ([Some PARTICIPLE_FORM_FULL; Some TIME_PAST; Some ANIMALITY_ANIMATE; Some NUMBER_PLURAL; Some CASE_DATIVE; None], 40);
  ([Some PARTICIPLE_FORM_FULL; Some TIME_PAST; Some ANIMALITY_ANIMATE; Some NUMBER_PLURAL; Some CASE_ACCUSATIVE; None], 42);
  ([Some PARTICIPLE_FORM_FULL; Some TIME_PAST; Some ANIMALITY_ANIMATE; Some NUMBER_PLURAL; Some CASE_INSTRUMENTAL; None], 44);
  ([Some PARTICIPLE_FORM_FULL; Some TIME_PAST; Some ANIMALITY_ANIMATE; Some NUMBER_PLURAL; Some CASE_PREPOSITIONAL; None], 46);
  ([Some PARTICIPLE_FORM_FULL; Some TIME_PAST; Some ANIMALITY_INANIMATE; Some NUMBER_SINGULAR; Some CASE_NOMINATIVE; Some GENDER_MASCULINE], 1);
  ([Some PARTICIPLE_FORM_FULL; Some TIME_PAST; Some ANIMALITY_INANIMATE; Some NUMBER_SINGULAR; Some CASE_NOMINATIVE; Some GENDER_NEUTER], 3);
  ([Some PARTICIPLE_FORM_FULL; Some TIME_PAST; Some ANIMALITY_INANIMATE; Some NUMBER_SINGULAR; Some CASE_NOMINATIVE; Some GENDER_FEMININE], 5);
  ([Some PARTICIPLE_FORM_FULL; Some TIME_PAST; Some ANIMALITY_INANIMATE; Some NUMBER_SINGULAR; Some CASE_GENITIVE; Some GENDER_MASCULINE], 7);
  ([Some PARTICIPLE_FORM_FULL; Some TIME_PAST; Some ANIMALITY_INANIMATE; Some NUMBER_SINGULAR; Some CASE_GENITIVE; Some GENDER_NEUTER], 9);
  ([Some PARTICIPLE_FORM_FULL; Some TIME_PAST; Some ANIMALITY_INANIMATE; Some NUMBER_SINGULAR; Some CASE_GENITIVE; Some GENDER_FEMININE], 11);
  ([Some PARTICIPLE_FORM_FULL; Some TIME_PAST; Some ANIMALITY_INANIMATE; Some NUMBER_SINGULAR; Some CASE_DATIVE; Some GENDER_MASCULINE], 13);
  ([Some PARTICIPLE_FORM_FULL; Some TIME_PAST; Some ANIMALITY_INANIMATE; Some NUMBER_SINGULAR; Some CASE_DATIVE; Some GENDER_NEUTER], 15);
  ([Some PARTICIPLE_FORM_FULL; Some TIME_PAST; Some ANIMALITY_INANIMATE; Some NUMBER_SINGULAR; Some CASE_DATIVE; Some GENDER_FEMININE], 17);
  ([Some PARTICIPLE_FORM_FULL; Some TIME_PAST; Some ANIMALITY_INANIMATE; Some NUMBER_SINGULAR; Some CASE_ACCUSATIVE; Some GENDER_MASCULINE], 19);
  ([Some PARTICIPLE_FORM_FULL; Some TIME_PAST; Some ANIMALITY_INANIMATE; Some NUMBER_SINGULAR; Some CASE_ACCUSATIVE; Some GENDER_NEUTER], 21);
  ([Some PARTICIPLE_FORM_FULL; Some TIME_PAST; Some ANIMALITY_INANIMATE; Some NUMBER_SINGULAR; Some CASE_ACCUSATIVE; Some GENDER_FEMININE], 23);
  ([Some PARTICIPLE_FORM_FULL; Some TIME_PAST; Some ANIMALITY_INANIMATE; Some NUMBER_SINGULAR; Some CASE_INSTRUMENTAL; Some GENDER_MASCULINE], 25);
  ([Some PARTICIPLE_FORM_FULL; Some TIME_PAST; Some ANIMALITY_INANIMATE; Some NUMBER_SINGULAR; Some CASE_INSTRUMENTAL; Some GENDER_NEUTER], 27);
  ([Some PARTICIPLE_FORM_FULL; Some TIME_PAST; Some ANIMALITY_INANIMATE; Some NUMBER_SINGULAR; Some CASE_INSTRUMENTAL; Some GENDER_FEMININE], 29);
  ([Some PARTICIPLE_FORM_FULL; Some TIME_PAST; Some ANIMALITY_INANIMATE; Some NUMBER_SINGULAR; Some CASE_PREPOSITIONAL; Some GENDER_MASCULINE], 31);
  ([Some PARTICIPLE_FORM_FULL; Some TIME_PAST; Some ANIMALITY_INANIMATE; Some NUMBER_SINGULAR; Some CASE_PREPOSITIONAL; Some GENDER_NEUTER], 33);
  ([Some PARTICIPLE_FORM_FULL; Some TIME_PAST; Some ANIMALITY_INANIMATE; Some NUMBER_SINGULAR; Some CASE_PREPOSITIONAL; Some GENDER_FEMININE], 35);
  ([Some PARTICIPLE_FORM_FULL; Some TIME_PAST; Some ANIMALITY_INANIMATE; Some NUMBER_PLURAL; Some CASE_NOMINATIVE; None], 37);
  ([Some PARTICIPLE_FORM_FULL; Some TIME_PAST; Some ANIMALITY_INANIMATE; Some NUMBER_PLURAL; Some CASE_GENITIVE; None], 39);
  ([Some PARTICIPLE_FORM_FULL; Some TIME_PAST; Some ANIMALITY_INANIMATE; Some NUMBER_PLURAL; Some CASE_DATIVE; None], 41);
  ([Some PARTICIPLE_FORM_FULL; Some TIME_PAST; Some ANIMALITY_INANIMATE; Some NUMBER_PLURAL; Some CASE_ACCUSATIVE; None], 43);
  ([Some PARTICIPLE_FORM_FULL; Some TIME_PAST; Some ANIMALITY_INANIMATE; Some NUMBER_PLURAL; Some CASE_INSTRUMENTAL; None], 45);
  ([Some PARTICIPLE_FORM_FULL; Some TIME_PAST; Some ANIMALITY_INANIMATE; Some NUMBER_PLURAL; Some CASE_PREPOSITIONAL; None], 47);
  ([Some PARTICIPLE_FORM_FULL; Some TIME_PRESENT; Some ANIMALITY_ANIMATE; Some NUMBER_SINGULAR; Some CASE_NOMINATIVE; Some GENDER_MASCULINE], 48);
  ([Some PARTICIPLE_FORM_FULL; Some TIME_PRESENT; Some ANIMALITY_ANIMATE; Some NUMBER_SINGULAR; Some CASE_NOMINATIVE; Some GENDER_NEUTER], 50);
  ([Some PARTICIPLE_FORM_FULL; Some TIME_PRESENT; Some ANIMALITY_ANIMATE; Some NUMBER_SINGULAR; Some CASE_NOMINATIVE; Some GENDER_FEMININE], 52);
  ([Some PARTICIPLE_FORM_FULL; Some TIME_PRESENT; Some ANIMALITY_ANIMATE; Some NUMBER_SINGULAR; Some CASE_GENITIVE; Some GENDER_MASCULINE], 54);
  ([Some PARTICIPLE_FORM_FULL; Some TIME_PRESENT; Some ANIMALITY_ANIMATE; Some NUMBER_SINGULAR; Some CASE_GENITIVE; Some GENDER_NEUTER], 56);
  ([Some PARTICIPLE_FORM_FULL; Some TIME_PRESENT; Some ANIMALITY_ANIMATE; Some NUMBER_SINGULAR; Some CASE_GENITIVE; Some GENDER_FEMININE], 58);
  ([Some PARTICIPLE_FORM_FULL; Some TIME_PRESENT; Some ANIMALITY_ANIMATE; Some NUMBER_SINGULAR; Some CASE_DATIVE; Some GENDER_MASCULINE], 60);
  ([Some PARTICIPLE_FORM_FULL; Some TIME_PRESENT; Some ANIMALITY_ANIMATE; Some NUMBER_SINGULAR; Some CASE_DATIVE; Some GENDER_NEUTER], 62);
  ([Some PARTICIPLE_FORM_FULL; Some TIME_PRESENT; Some ANIMALITY_ANIMATE; Some NUMBER_SINGULAR; Some CASE_DATIVE; Some GENDER_FEMININE], 64);
  ([Some PARTICIPLE_FORM_FULL; Some TIME_PRESENT; Some ANIMALITY_ANIMATE; Some NUMBER_SINGULAR; Some CASE_ACCUSATIVE; Some GENDER_MASCULINE], 66);
  ([Some PARTICIPLE_FORM_FULL; Some TIME_PRESENT; Some ANIMALITY_ANIMATE; Some NUMBER_SINGULAR; Some CASE_ACCUSATIVE; Some GENDER_NEUTER], 68);
  ([Some PARTICIPLE_FORM_FULL; Some TIME_PRESENT; Some ANIMALITY_ANIMATE; Some NUMBER_SINGULAR; Some CASE_ACCUSATIVE; Some GENDER_FEMININE], 70);
  ([Some PARTICIPLE_FORM_FULL; Some TIME_PRESENT; Some ANIMALITY_ANIMATE; Some NUMBER_SINGULAR; Some CASE_INSTRUMENTAL; Some GENDER_MASCULINE], 72);
  ([Some PARTICIPLE_FORM_FULL; Some TIME_PRESENT; Some ANIMALITY_ANIMATE; Some NUMBER_SINGULAR; Some CASE_INSTRUMENTAL; Some GENDER_NEUTER], 74);
  ([Some PARTICIPLE_FORM_FULL; Some TIME_PRESENT; Some ANIMALITY_ANIMATE; Some NUMBER_SINGULAR; Some CASE_INSTRUMENTAL; Some GENDER_FEMININE], 76);
  ([Some PARTICIPLE_FORM_FULL; Some TIME_PRESENT; Some ANIMALITY_ANIMATE; Some NUMBER_SINGULAR; Some CASE_PREPOSITIONAL; Some GENDER_MASCULINE], 78);
  ([Some PARTICIPLE_FORM_FULL; Some TIME_PRESENT; Some ANIMALITY_ANIMATE; Some NUMBER_SINGULAR; Some CASE_PREPOSITIONAL; Some GENDER_NEUTER], 80);
  ([Some PARTICIPLE_FORM_FULL; Some TIME_PRESENT; Some ANIMALITY_ANIMATE; Some NUMBER_SINGULAR; Some CASE_PREPOSITIONAL; Some GENDER_FEMININE], 82);
  ([Some PARTICIPLE_FORM_FULL; Some TIME_PRESENT; Some ANIMALITY_ANIMATE; Some NUMBER_PLURAL; Some CASE_NOMINATIVE; None], 84);
  ([Some PARTICIPLE_FORM_FULL; Some TIME_PRESENT; Some ANIMALITY_ANIMATE; Some NUMBER_PLURAL; Some CASE_GENITIVE; None], 86);
  ([Some PARTICIPLE_FORM_FULL; Some TIME_PRESENT; Some ANIMALITY_ANIMATE; Some NUMBER_PLURAL; Some CASE_DATIVE; None], 88);
  ([Some PARTICIPLE_FORM_FULL; Some TIME_PRESENT; Some ANIMALITY_ANIMATE; Some NUMBER_PLURAL; Some CASE_ACCUSATIVE; None], 90);
  ([Some PARTICIPLE_FORM_FULL; Some TIME_PRESENT; Some ANIMALITY_ANIMATE; Some NUMBER_PLURAL; Some CASE_INSTRUMENTAL; None], 92);
  ([Some PARTICIPLE_FORM_FULL; Some TIME_PRESENT; Some ANIMALITY_ANIMATE; Some NUMBER_PLURAL; Some CASE_PREPOSITIONAL; None], 94);
  ([Some PARTICIPLE_FORM_FULL; Some TIME_PRESENT; Some ANIMALITY_INANIMATE; Some NUMBER_SINGULAR; Some CASE_NOMINATIVE; Some GENDER_MASCULINE], 49);
  ([Some PARTICIPLE_FORM_FULL; Some TIME_PRESENT; Some ANIMALITY_INANIMATE; Some NUMBER_SINGULAR; Some CASE_NOMINATIVE; Some GENDER_NEUTER], 51);
  ([Some PARTICIPLE_FORM_FULL; Some TIME_PRESENT; Some ANIMALITY_INANIMATE; Some NUMBER_SINGULAR; Some CASE_NOMINATIVE; Some GENDER_FEMININE], 53);
  ([Some PARTICIPLE_FORM_FULL; Some TIME_PRESENT; Some ANIMALITY_INANIMATE; Some NUMBER_SINGULAR; Some CASE_GENITIVE; Some GENDER_MASCULINE], 55);
  ([Some PARTICIPLE_FORM_FULL; Some TIME_PRESENT; Some ANIMALITY_INANIMATE; Some NUMBER_SINGULAR; Some CASE_GENITIVE; Some GENDER_NEUTER], 57);
  ([Some PARTICIPLE_FORM_FULL; Some TIME_PRESENT; Some ANIMALITY_INANIMATE; Some NUMBER_SINGULAR; Some CASE_GENITIVE; Some GENDER_FEMININE], 59);
  ([Some PARTICIPLE_FORM_FULL; Some TIME_PRESENT; Some ANIMALITY_INANIMATE; Some NUMBER_SINGULAR; Some CASE_DATIVE; Some GENDER_MASCULINE], 61);
  ([Some PARTICIPLE_FORM_FULL; Some TIME_PRESENT; Some ANIMALITY_INANIMATE; Some NUMBER_SINGULAR; Some CASE_DATIVE; Some GENDER_NEUTER], 63);
  ([Some PARTICIPLE_FORM_FULL; Some TIME_PRESENT; Some ANIMALITY_INANIMATE; Some NUMBER_SINGULAR; Some CASE_DATIVE; Some GENDER_FEMININE], 65);
  ([Some PARTICIPLE_FORM_FULL; Some TIME_PRESENT; Some ANIMALITY_INANIMATE; Some NUMBER_SINGULAR; Some CASE_ACCUSATIVE; Some GENDER_MASCULINE], 67);
  ([Some PARTICIPLE_FORM_FULL; Some TIME_PRESENT; Some ANIMALITY_INANIMATE; Some NUMBER_SINGULAR; Some CASE_ACCUSATIVE; Some GENDER_NEUTER], 69);
  ([Some PARTICIPLE_FORM_FULL; Some TIME_PRESENT; Some ANIMALITY_INANIMATE; Some NUMBER_SINGULAR; Some CASE_ACCUSATIVE; Some GENDER_FEMININE], 71);
  ([Some PARTICIPLE_FORM_FULL; Some TIME_PRESENT; Some ANIMALITY_INANIMATE; Some NUMBER_SINGULAR; Some CASE_INSTRUMENTAL; Some GENDER_MASCULINE], 73);
  ([Some PARTICIPLE_FORM_FULL; Some TIME_PRESENT; Some ANIMALITY_INANIMATE; Some NUMBER_SINGULAR; Some CASE_INSTRUMENTAL; Some GENDER_NEUTER], 75);
  ([Some PARTICIPLE_FORM_FULL; Some TIME_PRESENT; Some ANIMALITY_INANIMATE; Some NUMBER_SINGULAR; Some CASE_INSTRUMENTAL; Some GENDER_FEMININE], 77);
  ([Some PARTICIPLE_FORM_FULL; Some TIME_PRESENT; Some ANIMALITY_INANIMATE; Some NUMBER_SINGULAR; Some CASE_PREPOSITIONAL; Some GENDER_MASCULINE], 79);
  ([Some PARTICIPLE_FORM_FULL; Some TIME_PRESENT; Some ANIMALITY_INANIMATE; Some NUMBER_SINGULAR; Some CASE_PREPOSITIONAL; Some GENDER_NEUTER], 81);
  ([Some PARTICIPLE_FORM_FULL; Some TIME_PRESENT; Some ANIMALITY_INANIMATE; Some NUMBER_SINGULAR; Some CASE_PREPOSITIONAL; Some GENDER_FEMININE], 83);
  ([Some PARTICIPLE_FORM_FULL; Some TIME_PRESENT; Some ANIMALITY_INANIMATE; Some NUMBER_PLURAL; Some CASE_NOMINATIVE; None], 85);
  ([Some PARTICIPLE_FORM_FULL; Some TIME_PRESENT; Some ANIMALITY_INANIMATE; Some NUMBER_PLURAL; Some CASE_GENITIVE; None], 87);
  ([Some PARTICIPLE_FORM_FULL; Some TIME_PRESENT; Some ANIMALITY_INANIMATE; Some NUMBER_PLURAL; Some CASE_DATIVE; None], 89);
  ([Some PARTICIPLE_FORM_FULL; Some TIME_PRESENT; Some ANIMALITY_INANIMATE; Some NUMBER_PLURAL; Some CASE_ACCUSATIVE; None], 91);
  ([Some PARTICIPLE_FORM_FULL; Some TIME_PRESENT; Some ANIMALITY_INANIMATE; Some NUMBER_PLURAL; Some CASE_INSTRUMENTAL; None], 93);
  ([Some PARTICIPLE_FORM_FULL; Some TIME_PRESENT; Some ANIMALITY_INANIMATE; Some NUMBER_PLURAL; Some CASE_PREPOSITIONAL; None], 95);
  ([Some PARTICIPLE_FORM_FULL; Some TIME_FUTURE; Some ANIMALITY_ANIMATE; Some NUMBER_SINGULAR; Some CASE_NOMINATIVE; Some GENDER_MASCULINE], 96);
  ([Some PARTICIPLE_FORM_FULL; Some TIME_FUTURE; Some ANIMALITY_ANIMATE; Some NUMBER_SINGULAR; Some CASE_NOMINATIVE; Some GENDER_NEUTER], 98);
  ([Some PARTICIPLE_FORM_FULL; Some TIME_FUTURE; Some ANIMALITY_ANIMATE; Some NUMBER_SINGULAR; Some CASE_NOMINATIVE; Some GENDER_FEMININE], 100);
  ([Some PARTICIPLE_FORM_FULL; Some TIME_FUTURE; Some ANIMALITY_ANIMATE; Some NUMBER_SINGULAR; Some CASE_GENITIVE; Some GENDER_MASCULINE], 102);
  ([Some PARTICIPLE_FORM_FULL; Some TIME_FUTURE; Some ANIMALITY_ANIMATE; Some NUMBER_SINGULAR; Some CASE_GENITIVE; Some GENDER_NEUTER], 104);
  ([Some PARTICIPLE_FORM_FULL; Some TIME_FUTURE; Some ANIMALITY_ANIMATE; Some NUMBER_SINGULAR; Some CASE_GENITIVE; Some GENDER_FEMININE], 106);
  ([Some PARTICIPLE_FORM_FULL; Some TIME_FUTURE; Some ANIMALITY_ANIMATE; Some NUMBER_SINGULAR; Some CASE_DATIVE; Some GENDER_MASCULINE], 108);
  ([Some PARTICIPLE_FORM_FULL; Some TIME_FUTURE; Some ANIMALITY_ANIMATE; Some NUMBER_SINGULAR; Some CASE_DATIVE; Some GENDER_NEUTER], 110);
  ([Some PARTICIPLE_FORM_FULL; Some TIME_FUTURE; Some ANIMALITY_ANIMATE; Some NUMBER_SINGULAR; Some CASE_DATIVE; Some GENDER_FEMININE], 112);
  ([Some PARTICIPLE_FORM_FULL; Some TIME_FUTURE; Some ANIMALITY_ANIMATE; Some NUMBER_SINGULAR; Some CASE_ACCUSATIVE; Some GENDER_MASCULINE], 114);
  ([Some PARTICIPLE_FORM_FULL; Some TIME_FUTURE; Some ANIMALITY_ANIMATE; Some NUMBER_SINGULAR; Some CASE_ACCUSATIVE; Some GENDER_NEUTER], 116);
  ([Some PARTICIPLE_FORM_FULL; Some TIME_FUTURE; Some ANIMALITY_ANIMATE; Some NUMBER_SINGULAR; Some CASE_ACCUSATIVE; Some GENDER_FEMININE], 118);
  ([Some PARTICIPLE_FORM_FULL; Some TIME_FUTURE; Some ANIMALITY_ANIMATE; Some NUMBER_SINGULAR; Some CASE_INSTRUMENTAL; Some GENDER_MASCULINE], 120);
  ([Some PARTICIPLE_FORM_FULL; Some TIME_FUTURE; Some ANIMALITY_ANIMATE; Some NUMBER_SINGULAR; Some CASE_INSTRUMENTAL; Some GENDER_NEUTER], 122);
  ([Some PARTICIPLE_FORM_FULL; Some TIME_FUTURE; Some ANIMALITY_ANIMATE; Some NUMBER_SINGULAR; Some CASE_INSTRUMENTAL; Some GENDER_FEMININE], 124);
  ([Some PARTICIPLE_FORM_FULL; Some TIME_FUTURE; Some ANIMALITY_ANIMATE; Some NUMBER_SINGULAR; Some CASE_PREPOSITIONAL; Some GENDER_MASCULINE], 126);
  ([Some PARTICIPLE_FORM_FULL; Some TIME_FUTURE; Some ANIMALITY_ANIMATE; Some NUMBER_SINGULAR; Some CASE_PREPOSITIONAL; Some GENDER_NEUTER], 128);
  ([Some PARTICIPLE_FORM_FULL; Some TIME_FUTURE; Some ANIMALITY_ANIMATE; Some NUMBER_SINGULAR; Some CASE_PREPOSITIONAL; Some GENDER_FEMININE], 130);
  ([Some PARTICIPLE_FORM_FULL; Some TIME_FUTURE; Some ANIMALITY_ANIMATE; Some NUMBER_PLURAL; Some CASE_NOMINATIVE; None], 132);
  ([Some PARTICIPLE_FORM_FULL; Some TIME_FUTURE; Some ANIMALITY_ANIMATE; Some NUMBER_PLURAL; Some CASE_GENITIVE; None], 134);
  ([Some PARTICIPLE_FORM_FULL; Some TIME_FUTURE; Some ANIMALITY_ANIMATE; Some NUMBER_PLURAL; Some CASE_DATIVE; None], 136);
  ([Some PARTICIPLE_FORM_FULL; Some TIME_FUTURE; Some ANIMALITY_ANIMATE; Some NUMBER_PLURAL; Some CASE_ACCUSATIVE; None], 138);
  ([Some PARTICIPLE_FORM_FULL; Some TIME_FUTURE; Some ANIMALITY_ANIMATE; Some NUMBER_PLURAL; Some CASE_INSTRUMENTAL; None], 140);
  ([Some PARTICIPLE_FORM_FULL; Some TIME_FUTURE; Some ANIMALITY_ANIMATE; Some NUMBER_PLURAL; Some CASE_PREPOSITIONAL; None], 142);
  ([Some PARTICIPLE_FORM_FULL; Some TIME_FUTURE; Some ANIMALITY_INANIMATE; Some NUMBER_SINGULAR; Some CASE_NOMINATIVE; Some GENDER_MASCULINE], 97);
  ([Some PARTICIPLE_FORM_FULL; Some TIME_FUTURE; Some ANIMALITY_INANIMATE; Some NUMBER_SINGULAR; Some CASE_NOMINATIVE; Some GENDER_NEUTER], 99);
  ([Some PARTICIPLE_FORM_FULL; Some TIME_FUTURE; Some ANIMALITY_INANIMATE; Some NUMBER_SINGULAR; Some CASE_NOMINATIVE; Some GENDER_FEMININE], 101);
  ([Some PARTICIPLE_FORM_FULL; Some TIME_FUTURE; Some ANIMALITY_INANIMATE; Some NUMBER_SINGULAR; Some CASE_GENITIVE; Some GENDER_MASCULINE], 103);
  ([Some PARTICIPLE_FORM_FULL; Some TIME_FUTURE; Some ANIMALITY_INANIMATE; Some NUMBER_SINGULAR; Some CASE_GENITIVE; Some GENDER_NEUTER], 105);
  ([Some PARTICIPLE_FORM_FULL; Some TIME_FUTURE; Some ANIMALITY_INANIMATE; Some NUMBER_SINGULAR; Some CASE_GENITIVE; Some GENDER_FEMININE], 107);
  ([Some PARTICIPLE_FORM_FULL; Some TIME_FUTURE; Some ANIMALITY_INANIMATE; Some NUMBER_SINGULAR; Some CASE_DATIVE; Some GENDER_MASCULINE], 109);
  ([Some PARTICIPLE_FORM_FULL; Some TIME_FUTURE; Some ANIMALITY_INANIMATE; Some NUMBER_SINGULAR; Some CASE_DATIVE; Some GENDER_NEUTER], 111);
  ([Some PARTICIPLE_FORM_FULL; Some TIME_FUTURE; Some ANIMALITY_INANIMATE; Some NUMBER_SINGULAR; Some CASE_DATIVE; Some GENDER_FEMININE], 113);
  ([Some PARTICIPLE_FORM_FULL; Some TIME_FUTURE; Some ANIMALITY_INANIMATE; Some NUMBER_SINGULAR; Some CASE_ACCUSATIVE; Some GENDER_MASCULINE], 115);
  ([Some PARTICIPLE_FORM_FULL; Some TIME_FUTURE; Some ANIMALITY_INANIMATE; Some NUMBER_SINGULAR; Some CASE_ACCUSATIVE; Some GENDER_NEUTER], 117);
  ([Some PARTICIPLE_FORM_FULL; Some TIME_FUTURE; Some ANIMALITY_INANIMATE; Some NUMBER_SINGULAR; Some CASE_ACCUSATIVE; Some GENDER_FEMININE], 119);
  ([Some PARTICIPLE_FORM_FULL; Some TIME_FUTURE; Some ANIMALITY_INANIMATE; Some NUMBER_SINGULAR; Some CASE_INSTRUMENTAL; Some GENDER_MASCULINE], 121);
  ([Some PARTICIPLE_FORM_FULL; Some TIME_FUTURE; Some ANIMALITY_INANIMATE; Some NUMBER_SINGULAR; Some CASE_INSTRUMENTAL; Some GENDER_NEUTER], 123);
  ([Some PARTICIPLE_FORM_FULL; Some TIME_FUTURE; Some ANIMALITY_INANIMATE; Some NUMBER_SINGULAR; Some CASE_INSTRUMENTAL; Some GENDER_FEMININE], 125);
  ([Some PARTICIPLE_FORM_FULL; Some TIME_FUTURE; Some ANIMALITY_INANIMATE; Some NUMBER_SINGULAR; Some CASE_PREPOSITIONAL; Some GENDER_MASCULINE], 127);
  ([Some PARTICIPLE_FORM_FULL; Some TIME_FUTURE; Some ANIMALITY_INANIMATE; Some NUMBER_SINGULAR; Some CASE_PREPOSITIONAL; Some GENDER_NEUTER], 129);
  ([Some PARTICIPLE_FORM_FULL; Some TIME_FUTURE; Some ANIMALITY_INANIMATE; Some NUMBER_SINGULAR; Some CASE_PREPOSITIONAL; Some GENDER_FEMININE], 131);
  ([Some PARTICIPLE_FORM_FULL; Some TIME_FUTURE; Some ANIMALITY_INANIMATE; Some NUMBER_PLURAL; Some CASE_NOMINATIVE; None], 133);
  ([Some PARTICIPLE_FORM_FULL; Some TIME_FUTURE; Some ANIMALITY_INANIMATE; Some NUMBER_PLURAL; Some CASE_GENITIVE; None], 135);
  ([Some PARTICIPLE_FORM_FULL; Some TIME_FUTURE; Some ANIMALITY_INANIMATE; Some NUMBER_PLURAL; Some CASE_DATIVE; None], 137);
  ([Some PARTICIPLE_FORM_FULL; Some TIME_FUTURE; Some ANIMALITY_INANIMATE; Some NUMBER_PLURAL; Some CASE_ACCUSATIVE; None], 139);
  ([Some PARTICIPLE_FORM_FULL; Some TIME_FUTURE; Some ANIMALITY_INANIMATE; Some NUMBER_PLURAL; Some CASE_INSTRUMENTAL; None], 141);
  ([Some PARTICIPLE_FORM_FULL; Some TIME_FUTURE; Some ANIMALITY_INANIMATE; Some NUMBER_PLURAL; Some CASE_PREPOSITIONAL; None], 143);
  ([Some PARTICIPLE_FORM_SHORT; None; None; Some NUMBER_SINGULAR; None; Some GENDER_MASCULINE], 144);
  ([Some PARTICIPLE_FORM_SHORT; None; None; Some NUMBER_SINGULAR; None; Some GENDER_NEUTER], 145);
  ([Some PARTICIPLE_FORM_SHORT; None; None; Some NUMBER_SINGULAR; None; Some GENDER_FEMININE], 146);
  ([Some PARTICIPLE_FORM_SHORT; None; None; Some NUMBER_PLURAL; None; None], 147)
].

(** utg/migrations/m_0008_lower_animiality_nearest_priority.py:388-388 *)
Definition m8_OLD_CACHES_INTEGER : dict key nat := dict_literal [
  ([], 0)
].

(** utg/migrations/m_0008_lower_animiality_nearest_priority.py:389-389 *)
Definition m8_OLD_CACHES_TEXT : dict key nat := dict_literal [
  ([], 0)
].

(** utg/migrations/m_0008_lower_animiality_nearest_priority.py:390-392 *)
Definition m8_OLD_CACHES_PREPOSITION : dict key nat := dict_literal [
  ([Some PREPOSITION_FORM_NORMAL], 0);
  ([Some PREPOSITION_FORM_ALTERNATIVE], 1);
  ([Some PREPOSITION_FORM_SPECIAL], 2)
].

(** utg/migrations/m_0008_lower_animiality_nearest_priority.py:29 *)
Definition m8_OLD_CACHES (t : word_type) : dict key nat :=
  match t with
  | WT_NOUN => m8_OLD_CACHES_NOUN
  | WT_ADJECTIVE => m8_OLD_CACHES_ADJECTIVE
  | WT_PRONOUN => m8_OLD_CACHES_PRONOUN
  | WT_VERB => m8_OLD_CACHES_VERB
  | WT_PARTICIPLE => m8_OLD_CACHES_PARTICIPLE
  | WT_INTEGER => m8_OLD_CACHES_INTEGER
  | WT_TEXT => m8_OLD_CACHES_TEXT
  | WT_PREPOSITION => m8_OLD_CACHES_PREPOSITION
  end.

(** utg/migrations/m_0008_lower_animiality_nearest_priority.py:395-412 *)
Definition m8_NEW_CACHES_NOUN : dict key nat := dict_literal [
  ([Some NOUN_FORM_NORMAL; Some NUMBER_SINGULAR; Some CASE_NOMINATIVE], 0);
  ([Some NOUN_FORM_NORMAL; Some NUMBER_SINGULAR; Some CASE_GENITIVE], 1);
  ([Some NOUN_FORM_NORMAL; Some NUMBER_SINGULAR; Some CASE_DATIVE], 2);
  ([Some NOUN_FORM_NORMAL; Some NUMBER_SINGULAR; Some CASE_ACCUSATIVE], 3);
  ([Some NOUN_FORM_NORMAL; Some NUMBER_SINGULAR; Some CASE_INSTRUMENTAL], 4);
  ([Some NOUN_FORM_NORMAL; Some NUMBER_SINGULAR; Some CASE_PREPOSITIONAL], 5);
  ([Some NOUN_FORM_NORMAL; Some NUMBER_PLURAL; Some CASE_NOMINATIVE], 6);
  ([Some NOUN_FORM_NORMAL; Some NUMBER_PLURAL; Some CASE_GENITIVE], 7);
  ([Some NOUN_FORM_NORMAL; Some NUMBER_PLURAL; Some CASE_DATIVE], 8);
  ([Some NOUN_FORM_NORMAL; Some NUMBER_PLURAL; Some CASE_ACCUSATIVE], 9);
  ([Some NOUN_FORM_NORMAL; Some NUMBER_PLURAL; Some CASE_INSTRUMENTAL], 10);
  ([Some NOUN_FORM_NORMAL; Some NUMBER_PLURAL; Some CASE_PREPOSITIONAL], 11);
  ([Some NOUN_FORM_COUNTABLE; Some NUMBER_PLURAL; Some CASE_NOMINATIVE], 12);
  ([Some NOUN_FORM_COUNTABLE; Some NUMBER_PLURAL; Some CASE_GENITIVE], 13);
  ([Some NOUN_FORM_COUNTABLE; Some NUMBER_PLURAL; Some CASE_DATIVE], 14);
  ([Some NOUN_FORM_COUNTABLE; Some NUMBER_PLURAL; Some CASE_ACCUSATIVE], 15);
  ([Some NOUN_FORM_COUNTABLE; Some NUMBER_PLURAL; Some CASE_INSTRUMENTAL], 16);
  ([Some NOUN_FORM_COUNTABLE; Some NUMBER_PLURAL; Some CASE_PREPOSITIONAL], 17)
].

(** utg/migrations/m_0008_lower_animiality_nearest_priority.py:413-513 *)
Definition m8_NEW_CACHES_ADJECTIVE : dict key nat := dict_literal [
  ([Some ADJECTIVE_FORM_FULL; Some GRADE_POSITIVE; Some ANIMALITY_ANIMATE; Some NUMBER_SINGULAR; Some CASE_NOMINATIVE; Some GENDER_MASCULINE], 0);
  ([Some ADJECTIVE_FORM_FULL; Some GRADE_POSITIVE; Some ANIMALITY_ANIMATE; Some NUMBER_SINGULAR; Some CASE_NOMINATIVE; Some GENDER_NEUTER], 1);
  ([Some ADJECTIVE_FORM_FULL; Some GRADE_POSITIVE; Some ANIMALITY_ANIMATE; Some NUMBER_SINGULAR; Some CASE_NOMINATIVE; Some GENDER_FEMININE], 2);
  ([Some ADJECTIVE_FORM_FULL; Some GRADE_POSITIVE; Some ANIMALITY_ANIMATE; Some NUMBER_SINGULAR; Some CASE_GENITIVE; Some GENDER_MASCULINE], 3);
  ([Some ADJECTIVE_FORM_FULL; Some GRADE_POSITIVE; Some ANIMALITY_ANIMATE; Some NUMBER_SINGULAR; Some CASE_GENITIVE; Some GENDER_NEUTER], 4);
  ([Some ADJECTIVE_FORM_FULL; Some GRADE_POSITIVE; Some ANIMALITY_ANIMATE; Some NUMBER_SINGULAR; Some CASE_GENITIVE; Some GENDER_FEMININE], 5);
  ([Some ADJECTIVE_FORM_FULL; Some GRADE_POSITIVE; Some ANIMALITY_ANIMATE; Some NUMBER_SINGULAR; Some CASE_DATIVE; Some GENDER_MASCULINE], 6);
  ([Some ADJECTIVE_FORM_FULL; Some GRADE_POSITIVE; Some ANIMALITY_ANIMATE; Some NUMBER_SINGULAR; Some CASE_DATIVE; Some GENDER_NEUTER], 7);
  ([Some ADJECTIVE_FORM_FULL; Some GRADE_POSITIVE; Some ANIMALITY_ANIMATE; Some NUMBER_SINGULAR; Some CASE_DATIVE; Some GENDER_FEMININE], 8);
  ([Some ADJECTIVE_FORM_FULL; Some GRADE_POSITIVE; Some ANIMALITY_ANIMATE; Some NUMBER_SINGULAR; Some CASE_ACCUSATIVE; Some GENDER_MASCULINE], 9);
  ([Some ADJECTIVE_FORM_FULL; Some GRADE_POSITIVE; Some ANIMALITY_ANIMATE; Some NUMBER_SINGULAR; Some CASE_ACCUSATIVE; Some GENDER_NEUTER], 10);
  ([Some ADJECTIVE_FORM_FULL; Some GRADE_POSITIVE; Some ANIMALITY_ANIMATE; Some NUMBER_SINGULAR; Some CASE_ACCUSATIVE; Some GENDER_FEMININE], 11);
  ([Some ADJECTIVE_FORM_FULL; Some GRADE_POSITIVE; Some ANIMALITY_ANIMATE; Some NUMBER_SINGULAR; Some CASE_INSTRUMENTAL; Some GENDER_MASCULINE], 12);
  ([Some ADJECTIVE_FORM_FULL; Some GRADE_POSITIVE; Some ANIMALITY_ANIMATE; Some NUMBER_SINGULAR; Some CASE_INSTRUMENTAL; Some GENDER_NEUTER], 13);
  ([Some ADJECTIVE_FORM_FULL; Some GRADE_POSITIVE; Some ANIMALITY_ANIMATE; Some NUMBER_SINGULAR; Some CASE_INSTRUMENTAL; Some GENDER_FEMININE], 14);
  ([Some ADJECTIVE_FORM_FULL; Some GRADE_POSITIVE; Some ANIMALITY_ANIMATE; Some NUMBER_SINGULAR; Some CASE_PREPOSITIONAL; Some GENDER_MASCULINE], 15);
  ([Some ADJECTIVE_FORM_FULL; Some GRADE_POSITIVE; Some ANIMALITY_ANIMATE; Some NUMBER_SINGULAR; Some CASE_PREPOSITIONAL; Some GENDER_NEUTER], 16);
  ([Some ADJECTIVE_FORM_FULL; Some GRADE_POSITIVE; Some ANIMALITY_ANIMATE; Some NUMBER_SINGULAR; Some CASE_PREPOSITIONAL; Some GENDER_FEMININE], 17);
  ([Some ADJECTIVE_FORM_FULL; Some GRADE_POSITIVE; Some ANIMALITY_ANIMATE; Some NUMBER_PLURAL; Some CASE_NOMINATIVE; None], 18);
  ([Some ADJECTIVE_FORM_FULL; Some GRADE_POSITIVE; Some ANIMALITY_ANIMATE; Some NUMBER_PLURAL; Some CASE_GENITIVE; None], 19);
  ([Some ADJECTIVE_FORM_FULL; Some GRADE_POSITIVE; Some ANIMALITY_ANIMATE; Some NUMBER_PLURAL; Some CASE_DATIVE; None], 20);
  ([Some ADJECTIVE_FORM_FULL; Some GRADE_POSITIVE; Some ANIMALITY_ANIMATE; Some NUMBER_PLURAL; Some CASE_ACCUSATIVE; None], 21);
  ([Some ADJECTIVE_FORM_FULL; Some GRADE_POSITIVE; Some ANIMALITY_ANIMATE; Some NUMBER_PLURAL; Some CASE_INSTRUMENTAL; None], 22);
  ([Some ADJECTIVE_FORM_FULL; Some GRADE_POSITIVE; Some ANIMALITY_ANIMATE; Some NUMBER_PLURAL; Some CASE_PREPOSITIONAL; None], 23);
  ([Some ADJECTIVE_FORM_FULL; Some GRADE_POSITIVE; Some ANIMALITY_INANIMATE; Some NUMBER_SINGULAR; Some CASE_NOMINATIVE; Some GENDER_MASCULINE], 24);
  ([Some ADJECTIVE_FORM_FULL; Some GRADE_POSITIVE; Some ANIMALITY_INANIMATE; Some NUMBER_SINGULAR; Some CASE_NOMINATIVE; Some GENDER_NEUTER], 25);
  ([Some ADJECTIVE_FORM_FULL; Some GRADE_POSITIVE; Some ANIMALITY_INANIMATE; Some NUMBER_SINGULAR; Some CASE_NOMINATIVE; Some GENDER_FEMININE], 26);
  ([Some ADJECTIVE_FORM_FULL; Some GRADE_POSITIVE; Some ANIMALITY_INANIMATE; Some NUMBER_SINGULAR; Some CASE_GENITIVE; Some GENDER_MASCULINE], 27);
  ([Some ADJECTIVE_FORM_FULL; Some GRADE_POSITIVE; Some ANIMALITY_INANIMATE; Some NUMBER_SINGULAR; Some CASE_GENITIVE; Some GENDER_NEUTER], 28);
  ([Some ADJECTIVE_FORM_FULL; Some GRADE_POSITIVE; Some ANIMALITY_INANIMATE; Some NUMBER_SINGULAR; Some CASE_GENITIVE; Some GENDER_FEMININE], 29);
  ([Some ADJECTIVE_FORM_FULL; Some GRADE_POSITIVE; Some ANIMALITY_INANIMATE; Some NUMBER_SINGULAR; Some CASE_DATIVE; Some GENDER_MASCULINE], 30);
  ([Some ADJECTIVE_FORM_FULL; Some GRADE_POSITIVE; Some ANIMALITY_INANIMATE; Some NUMBER_SINGULAR; Some CASE_DATIVE; Some GENDER_NEUTER], 31);
  ([Some ADJECTIVE_FORM_FULL; Some GRADE_POSITIVE; Some ANIMALITY_INANIMATE; Some NUMBER_SINGULAR; Some CASE_DATIVE; Some GENDER_FEMININE], 32);
  ([Some ADJECTIVE_FORM_FULL; Some GRADE_POSITIVE; Some ANIMALITY_INANIMATE; Some NUMBER_SINGULAR; Some CASE_ACCUSATIVE; Some GENDER_MASCULINE], 33);
  ([Some ADJECTIVE_FORM_FULL; Some GRADE_POSITIVE; Some ANIMALITY_INANIMATE; Some NUMBER_SINGULAR; Some CASE_ACCUSATIVE; Some GENDER_NEUTER], 34);
  ([Some ADJECTIVE_FORM_FULL; Some GRADE_POSITIVE; Some ANIMALITY_INANIMATE; Some NUMBER_SINGULAR; Some CASE_ACCUSATIVE; Some GENDER_FEMININE], 35);
  ([Some ADJECTIVE_FORM_FULL; Some GRADE_POSITIVE; Some ANIMALITY_INANIMATE; Some NUMBER_SINGULAR; Some CASE_INSTRUMENTAL; Some GENDER_MASCULINE], 36);
  ([Some ADJECTIVE_FORM_FULL; Some GRADE_POSITIVE; Some ANIMALITY_INANIMATE; Some NUMBER_SINGULAR; Some CASE_INSTRUMENTAL; Some GENDER_NEUTER], 37);
  ([Some ADJECTIVE_FORM_FULL; Some GRADE_POSITIVE; Some ANIMALITY_INANIMATE; Some NUMBER_SINGULAR; Some CASE_INSTRUMENTAL; Some GENDER_FEMININE], 38);
  ([Some ADJECTIVE_FORM_FULL; Some GRADE_POSITIVE; Some ANIMALITY_INANIMATE; Some NUMBER_SINGULAR; Some CASE_PREPOSITIONAL; Some GENDER_MASCULINE], 39);
  ([Some ADJECTIVE_FORM_FULL; Some GRADE_POSITIVE; Some ANIMALITY_INANIMATE; Some NUMBER_SINGULAR; Some CASE_PREPOSITIONAL; Some GENDER_NEUTER], 40);
  ([Some ADJECTIVE_FORM_FULL; Some GRADE_POSITIVE; Some ANIMALITY_INANIMATE; Some NUMBER_SINGULAR; Some CASE_PREPOSITIONAL; Some GENDER_FEMININE], 41);
  ([Some ADJECTIVE_FORM_FULL; Some GRADE_POSITIVE; Some ANIMALITY_INANIMATE; Some NUMBER_PLURAL; Some CASE_NOMINATIVE; None], 42);
  ([Some ADJECTIVE_FORM_FULL; Some GRADE_POSITIVE; Some ANIMALITY_INANIMATE; Some NUMBER_PLURAL; Some CASE_GENITIVE; None], 43);
  ([Some ADJECTIVE_FORM_FULL; Some GRADE_POSITIVE; Some ANIMALITY_INANIMATE; Some NUMBER_PLURAL; Some CASE_DATIVE; None], 44);
  ([Some ADJECTIVE_FORM_FULL; Some GRADE_POSITIVE; Some ANIMALITY_INANIMATE; Some NUMBER_PLURAL; Some CASE_ACCUSATIVE; None], 45);
  ([Some ADJECTIVE_FORM_FULL; Some GRADE_POSITIVE; Some ANIMALITY_INANIMATE; Some NUMBER_PLURAL; Some CASE_INSTRUMENTAL; None], 46);
  ([Some ADJECTIVE_FORM_FULL; Some GRADE_POSITIVE; Some ANIMALITY_INANIMATE; Some NUMBER_PLURAL; Some CASE_PREPOSITIONAL; None], 47);
  ([Some ADJECTIVE_FORM_FULL; Some GRADE_COMPARATIVE; None; None; None; None], 48);
  ([Some ADJECTIVE_FORM_FULL; Some GRADE_SUPERLATIVE; Some ANIMALITY_ANIMATE; Some NUMBER_SINGULAR; Some CASE_NOMINATIVE; Some GENDER_MASCULINE], 49);
  ([Some ADJECTIVE_FORM_FULL; Some GRADE_SUPERLATIVE; Some ANIMALITY_ANIMATE; Some NUMBER_SINGULAR; Some CASE_NOMINATIVE; Some GENDER_NEUTER], 50);
  ([Some ADJECTIVE_FORM_FULL; Some GRADE_SUPERLATIVE; Some ANIMALITY_ANIMATE; Some NUMBER_SINGULAR; Some CASE_NOMINATIVE; Some GENDER_FEMININE], 51);
  ([Some ADJECTIVE_FORM_FULL; Some GRADE_SUPERLATIVE; Some ANIMALITY_ANIMATE; Some NUMBER_SINGULAR; Some CASE_GENITIVE; Some GENDER_MASCULINE], 52);
  ([Some ADJECTIVE_FORM_FULL; Some GRADE_SUPERLATIVE; Some ANIMALITY_ANIMATE; Some NUMBER_SINGULAR; Some CASE_GENITIVE; Some GENDER_NEUTER], 53);
  ([Some ADJECTIVE_FORM_FULL; Some GRADE_SUPERLATIVE; Some ANIMALITY_ANIMATE; Some NUMBER_SINGULAR; Some CASE_GENITIVE; Some GENDER_FEMININE], 54);
  ([Some ADJECTIVE_FORM_FULL; Some GRADE_SUPERLATIVE; Some ANIMALITY_ANIMATE; Some NUMBER_SINGULAR; Some CASE_DATIVE; Some GENDER_MASCULINE], 55);
  ([Some ADJECTIVE_FORM_FULL; Some GRADE_SUPERLATIVE; Some ANIMALITY_ANIMATE; Some NUMBER_SINGULAR; Some CASE_DATIVE; Some GENDER_NEUTER], 56);
  ([Some ADJECTIVE_FORM_FULL; Some GRADE_SUPERLATIVE; Some ANIMALITY_ANIMATE; Some NUMBER_SINGULAR; Some CASE_DATIVE; Some GENDER_FEMININE], 57);
  ([Some ADJECTIVE_FORM_FULL; Some GRADE_SUPERLATIVE; Some ANIMALITY_ANIMATE; Some NUMBER_SINGULAR; Some CASE_ACCUSATIVE; Some GENDER_MASCULINE], 58);
  ([Some ADJECTIVE_FORM_FULL; Some GRADE_SUPERLATIVE; Some ANIMALITY_ANIMATE; Some NUMBER_SINGULAR; Some CASE_ACCUSATIVE; Some GENDER_NEUTER], 59);
  ([Some ADJECTIVE_FORM_FULL; Some GRADE_SUPERLATIVE; Some ANIMALITY_ANIMATE; Some NUMBER_SINGULAR; Some CASE_ACCUSATIVE; Some GENDER_FEMININE], 60);
  ([Some ADJECTIVE_FORM_FULL; Some GRADE_SUPERLATIVE; Some ANIMALITY_ANIMATE; Some NUMBER_SINGULAR; Some CASE_INSTRUMENTAL; Some GENDER_MASCULINE], 61);
  ([Some ADJECTIVE_FORM_FULL; Some GRADE_SUPERLATIVE; Some ANIMALITY_ANIMATE; Some NUMBER_SINGULAR; Some CASE_INSTRUMENTAL; Some GENDER_NEUTER], 62);
  ([Some ADJECTIVE_FORM_FULL; Some GRADE_SUPERLATIVE; Some ANIMALITY_ANIMATE; Some NUMBER_SINGULAR; Some CASE_INSTRUMENTAL; Some GENDER_FEMININE], 63);
  ([Some ADJECTIVE_FORM_FULL; Some GRADE_SUPERLATIVE; Some ANIMALITY_ANIMATE; Some NUMBER_SINGULAR; Some CASE_PREPOSITIONAL; Some GENDER_MASCULINE], 64);
  ([Some ADJECTIVE_FORM_FULL; Some GRADE_SUPERLATIVE; Some ANIMALITY_ANIMATE; Some NUMBER_SINGULAR; Some CASE_PREPOSITIONAL; Some GENDER_NEUTER], 65);
  ([Some ADJECTIVE_FORM_FULL; Some GRADE_SUPERLATIVE; Some ANIMALITY_ANIMATE; Some NUMBER_SINGULAR; Some CASE_PREPOSITIONAL; Some GENDER_FEMININE], 66);
  ([Some ADJECTIVE_FORM_FULL; Some GRADE_SUPERLATIVE; Some ANIMALITY_ANIMATE; Some NUMBER_PLURAL; Some CASE_NOMINATIVE; None], 67);
  ([Some ADJECTIVE_FORM_FULL; Some GRADE_SUPERLATIVE; Some ANIMALITY_ANIMATE; Some NUMBER_PLURAL; Some CASE_GENITIVE; None], 68);
  ([Some ADJECTIVE_FORM_FULL; Some GRADE_SUPERLATIVE; Some ANIMALITY_ANIMATE; Some NUMBER_PLURAL; Some CASE_DATIVE; None], 69);
  ([Some ADJECTIVE_FORM_FULL; Some GRADE_SUPERLATIVE; Some ANIMALITY_ANIMATE; Some NUMBER_PLURAL; Some CASE_ACCUSATIVE; None], 70);
  ([Some ADJECTIVE_FORM_FULL; Some GRADE_SUPERLATIVE; Some ANIMALITY_ANIMATE; Some NUMBER_PLURAL; Some CASE_INSTRUMENTAL; None], 71);
  ([Some ADJECTIVE_FORM_FULL; Some GRADE_SUPERLATIVE; Some ANIMALITY_ANIMATE; Some NUMBER_PLURAL; Some CASE_PREPOSITIONAL; None], 72);
  ([Some ADJECTIVE_FORM_FULL; Some GRADE_SUPERLATIVE; Some ANIMALITY_INANIMATE; Some NUMBER_SINGULAR; Some CASE_NOMINATIVE; Some GENDER_MASCULINE], 73);
  ([Some ADJECTIVE_FORM_FULL; Some GRADE_SUPERLATIVE; Some ANIMALITY_INANIMATE; Some NUMBER_SINGULAR; Some CASE_NOMINATIVE; Some GENDER_NEUTER], 74);
  ([Some ADJECTIVE_FORM_FULL; Some GRADE_SUPERLATIVE; Some ANIMALITY_INANIMATE; Some NUMBER_SINGULAR; Some CASE_NOMINATIVE; Some GENDER_FEMININE], 75);
  ([Some ADJECTIVE_FORM_FULL; Some GRADE_SUPERLATIVE; Some ANIMALITY_INANIMATE; Some NUMBER_SINGULAR; Some CASE_GENITIVE; Some GENDER_MASCULINE], 76);
  ([Some ADJECTIVE_FORM_FULL; Some GRADE_SUPERLATIVE; Some ANIMALITY_INANIMATE; Some NUMBER_SINGULAR; Some CASE_GENITIVE; Some GENDER_NEUTER], 77);
  ([Some ADJECTIVE_FORM_FULL; Some GRADE_SUPERLATIVE; Some ANIMALITY_INANIMATE; Some NUMBER_SINGULAR; Some CASE_GENITIVE; Some GENDER_FEMININE], 78);
  ([Some ADJECTIVE_FORM_FULL; Some GRADE_SUPERLATIVE; Some ANIMALITY_INANIMATE; Some NUMBER_SINGULAR; Some CASE_DATIVE; Some GENDER_MASCULINE], 79);
  ([Some ADJECTIVE_FORM_FULL; Some GRADE_SUPERLATIVE; Some ANIMALITY_INANIMATE; Some NUMBER_SINGULAR; Some CASE_DATIVE; Some GENDER_NEUTER], 80);
  ([Some ADJECTIVE_FORM_FULL; Some GRADE_SUPERLATIVE; Some ANIMALITY_INANIMATE; Some NUMBER_SINGULAR; Some CASE_DATIVE; Some GENDER_FEMININE], 81);
  ([Some ADJECTIVE_FORM_FULL; Some GRADE_SUPERLATIVE; Some ANIMALITY_INANIMATE; Some NUMBER_SINGULAR; Some CASE_ACCUSATIVE; Some GENDER_MASCULINE], 82);
  ([Some ADJECTIVE_FORM_FULL; Some GRADE_SUPERLATIVE; Some ANIMALITY_INANIMATE; Some NUMBER_SINGULAR; Some CASE_ACCUSATIVE; Some GENDER_NEUTER], 83);
  ([Some ADJECTIVE_FORM_FULL; Some GRADE_SUPERLATIVE; Some ANIMALITY_INANIMATE; Some NUMBER_SINGULAR; Some CASE_ACCUSATIVE; Some GENDER_FEMININE], 84);
  ([Some ADJECTIVE_FORM_FULL; Some GRADE_SUPERLATIVE; Some ANIMALITY_INANIMATE; Some NUMBER_SINGULAR; Some CASE_INSTRUMENTAL; Some GENDER_MASCULINE], 85);
  ([Some ADJECTIVE_FORM_FULL; Some GRADE_SUPERLATIVE; Some ANIMALITY_INANIMATE; Some NUMBER_SINGULAR; Some CASE_INSTRUMENTAL; Some GENDER_NEUTER], 86);
  ([Some ADJECTIVE_FORM_FULL; Some GRADE_SUPERLATIVE; Some ANIMALITY_INANIMATE; Some NUMBER_SINGULAR; Some CASE_INSTRUMENTAL; Some GENDER_FEMININE], 87);
  ([Some ADJECTIVE_FORM_FULL; Some GRADE_SUPERLATIVE; Some ANIMALITY_INANIMATE; Some NUMBER_SINGULAR; Some CASE_PREPOSITIONAL; Some GENDER_MASCULINE], 88);
  ([Some ADJECTIVE_FORM_FULL; Some GRADE_SUPERLATIVE; Some ANIMALITY_INANIMATE; Some NUMBER_SINGULAR; Some CASE_PREPOSITIONAL; Some GENDER_NEUTER], 89);
  ([Some ADJECTIVE_FORM_FULL; Some GRADE_SUPERLATIVE; Some ANIMALITY_INANIMATE; Some NUMBER_SINGULAR; Some CASE_PREPOSITIONAL; Some GENDER_FEMININE], 90);
  ([Some ADJECTIVE_FORM_FULL; Some GRADE_SUPERLATIVE; Some ANIMALITY_INANIMATE; Some NUMBER_PLURAL; Some CASE_NOMINATIVE; None], 91);
  ([Some ADJECTIVE_FORM_FULL; Some GRADE_SUPERLATIVE; Some ANIMALITY_INANIMATE; Some NUMBER_PLURAL; Some CASE_GENITIVE; None], 92);
  ([Some ADJECTIVE_FORM_FULL; Some GRADE_SUPERLATIVE; Some ANIMALITY_INANIMATE; Some NUMBER_PLURAL; Some CASE_DATIVE; None], 93);
  ([Some ADJECTIVE_FORM_FULL; Some GRADE_SUPERLATIVE; Some ANIMALITY_INANIMATE; Some NUMBER_PLURAL; Some CASE_ACCUSATIVE; None], 94);
  ([Some ADJECTIVE_FORM_FULL; Some GRADE_SUPERLATIVE; Some ANIMALITY_INANIMATE; Some NUMBER_PLURAL; Some CASE_INSTRUMENTAL; None], 95);
  ([Some ADJECTIVE_FORM_FULL; Some GRADE_SUPERLATIVE; Some ANIMALITY_INANIMATE; Some NUMBER_PLURAL; Some CASE_PREPOSITIONAL; None], 96);
  ([Some ADJECTIVE_FORM_SHORT; None; None; Some NUMBER_SINGULAR; None; Some GENDER_MASCULINE], 97);
  ([Some ADJECTIVE_FORM_SHORT; None; None; Some NUMBER_SINGULAR; None; Some GENDER_NEUTER], 98);
  ([Some ADJECTIVE_FORM_SHORT; None; None; Some NUMBER_SINGULAR; None; Some GENDER_FEMININE], 99);
  ([Some ADJECTIVE_FORM_SHORT; None; None; Some NUMBER_PLURAL; None; None], 100)
].

(** utg/migrations/m_0008_lower_animiality_nearest_priority.py:514-585 *)
Definition m8_NEW_CACHES_PRONOUN : dict key nat := dict_literal [
  ([Some NUMBER_SINGULAR; Some CASE_NOMINATIVE; Some PERSON_FIRST; Some GENDER_MASCULINE], 0);
  ([Some NUMBER_SINGULAR; Some CASE_NOMINATIVE; Some PERSON_FIRST; Some GENDER_NEUTER], 1);
  ([Some NUMBER_SINGULAR; Some CASE_NOMINATIVE; Some PERSON_FIRST; Some GENDER_FEMININE], 2);
  ([Some NUMBER_SINGULAR; Some CASE_NOMINATIVE; Some PERSON_SECOND; Some GENDER_MASCULINE], 3);
  ([Some NUMBER_SINGULAR; Some CASE_NOMINATIVE; Some PERSON_SECOND; Some GENDER_NEUTER], 4);
  ([Some NUMBER_SINGULAR; Some CASE_NOMINATIVE; Some PERSON_SECOND; Some GENDER_FEMININE], 5);
  ([Some NUMBER_SINGULAR; Some CASE_NOMINATIVE; Some PERSON_THIRD; Some GENDER_MASCULINE], 6);
  ([Some NUMBER_SINGULAR; Some CASE_NOMINATIVE; Some PERSON_THIRD; Some GENDER_NEUTER], 7);
  ([Some NUMBER_SINGULAR; Some CASE_NOMINATIVE; Some PERSON_THIRD; Some GENDER_FEMININE], 8);
  ([Some NUMBER_SINGULAR; Some CASE_GENITIVE; Some PERSON_FIRST; Some GENDER_MASCULINE], 9);
  ([Some NUMBER_SINGULAR; Some CASE_GENITIVE; Some PERSON_FIRST; Some GENDER_NEUTER], 10);
  ([Some NUMBER_SINGULAR; Some CASE_GENITIVE; Some PERSON_FIRST; Some GENDER_FEMININE], 11);
  ([Some NUMBER_SINGULAR; Some CASE_GENITIVE; Some PERSON_SECOND; Some GENDER_MASCULINE], 12);
  ([Some NUMBER_SINGULAR; Some CASE_GENITIVE; Some PERSON_SECOND; Some GENDER_NEUTER], 13);
  ([Some NUMBER_SINGULAR; Some CASE_GENITIVE; Some PERSON_SECOND; Some GENDER_FEMININE], 14);
  ([Some NUMBER_SINGULAR; Some CASE_GENITIVE; Some PERSON_THIRD; Some GENDER_MASCULINE], 15);
  ([Some NUMBER_SINGULAR; Some CASE_GENITIVE; Some PERSON_THIRD; Some GENDER_NEUTER], 16);
  ([Some NUMBER_SINGULAR; Some CASE_GENITIVE; Some PERSON_THIRD; Some GENDER_FEMININE], 17);
  ([Some NUMBER_SINGULAR; Some CASE_DATIVE; Some PERSON_FIRST; Some GENDER_MASCULINE], 18);
  ([Some NUMBER_SINGULAR; Some CASE_DATIVE; Some PERSON_FIRST; Some GENDER_NEUTER], 19);
  ([Some NUMBER_SINGULAR; Some CASE_DATIVE; Some PERSON_FIRST; Some GENDER_FEMININE], 20);
  ([Some NUMBER_SINGULAR; Some CASE_DATIVE; Some PERSON_SECOND; Some GENDER_MASCULINE], 21);
  ([Some NUMBER_SINGULAR; Some CASE_DATIVE; Some PERSON_SECOND; Some GENDER_NEUTER], 22);
  ([Some NUMBER_SINGULAR; Some CASE_DATIVE; Some PERSON_SECOND; Some GENDER_FEMININE], 23);
  ([Some NUMBER_SINGULAR; Some CASE_DATIVE; Some PERSON_THIRD; Some GENDER_MASCULINE], 24);
  ([Some NUMBER_SINGULAR; Some CASE_DATIVE; Some PERSON_THIRD; Some GENDER_NEUTER], 25);
  ([Some NUMBER_SINGULAR; Some CASE_DATIVE; Some PERSON_THIRD; Some GENDER_FEMININE], 26);
  ([Some NUMBER_SINGULAR; Some CASE_ACCUSATIVE; Some PERSON_FIRST; Some GENDER_MASCULINE], 27);
  ([Some NUMBER_SINGULAR; Some CASE_ACCUSATIVE; Some PERSON_FIRST; Some GENDER_NEUTER], 28);
  ([Some NUMBER_SINGULAR; Some CASE_ACCUSATIVE; Some PERSON_FIRST; Some GENDER_FEMININE], 29);
  ([Some NUMBER_SINGULAR; Some CASE_ACCUSATIVE; Some PERSON_SECOND; Some GENDER_MASCULINE], 30);
  ([Some NUMBER_SINGULAR; Some CASE_ACCUSATIVE; Some PERSON_SECOND; Some GENDER_NEUTER], 31);
  ([Some NUMBER_SINGULAR; Some CASE_ACCUSATIVE; Some PERSON_SECOND; Some GENDER_FEMININE], 32);
  ([Some NUMBER_SINGULAR; Some CASE_ACCUSATIVE; Some PERSON_THIRD; Some GENDER_MASCULINE], 33);
  ([Some NUMBER_SINGULAR; Some CASE_ACCUSATIVE; Some PERSON_THIRD; Some GENDER_NEUTER], 34);
  ([Some NUMBER_SINGULAR; Some CASE_ACCUSATIVE; Some PERSON_THIRD; Some GENDER_FEMININE], 35);
  ([Some NUMBER_SINGULAR; Some CASE_INSTRUMENTAL; Some PERSON_FIRST; Some GENDER_MASCULINE], 36);
  ([Some NUMBER_SINGULAR; Some CASE_INSTRUMENTAL; Some PERSON_FIRST; Some GENDER_NEUTER], 37);
  ([Some NUMBER_SINGULAR; Some CASE_INSTRUMENTAL; Some PERSON_FIRST; Some GENDER_FEMININE], 38);
  ([Some NUMBER_SINGULAR; Some CASE_INSTRUMENTAL; Some PERSON_SECOND; Some GENDER_MASCULINE], 39);
  ([Some NUMBER_SINGULAR; Some CASE_INSTRUMENTAL; Some PERSON_SECOND; Some GENDER_NEUTER], 40);
  ([Some NUMBER_SINGULAR; Some CASE_INSTRUMENTAL; Some PERSON_SECOND; Some GENDER_FEMININE], 41);
  ([Some NUMBER_SINGULAR; Some CASE_INSTRUMENTAL; Some PERSON_THIRD; Some GENDER_MASCULINE], 42);
  ([Some NUMBER_SINGULAR; Some CASE_INSTRUMENTAL; Some PERSON_THIRD; Some GENDER_NEUTER], 43);
  ([Some NUMBER_SINGULAR; Some CASE_INSTRUMENTAL; Some PERSON_THIRD; Some GENDER_FEMININE], 44);
  ([Some NUMBER_SINGULAR; Some CASE_PREPOSITIONAL; Some PERSON_FIRST; Some GENDER_MASCULINE], 45);
  ([Some NUMBER_SINGULAR; Some CASE_PREPOSITIONAL; Some PERSON_FIRST; Some GENDER_NEUTER], 46);
  ([Some NUMBER_SINGULAR; Some CASE_PREPOSITIONAL; Some PERSON_FIRST; Some GENDER_FEMININE], 47);
  ([Some NUMBER_SINGULAR; Some CASE_PREPOSITIONAL; Some PERSON_SECOND; Some GENDER_MASCULINE], 48);
  ([Some NUMBER_SINGULAR; Some CASE_PREPOSITIONAL; Some PERSON_SECOND; Some GENDER_NEUTER], 49);
  ([Some NUMBER_SINGULAR; Some CASE_PREPOSITIONAL; Some PERSON_SECOND; Some GENDER_FEMININE], 50);
  ([Some NUMBER_SINGULAR; Some CASE_PREPOSITIONAL; Some PERSON_THIRD; Some GENDER_MASCULINE], 51);
  ([Some NUMBER_SINGULAR; Some CASE_PREPOSITIONAL; Some PERSON_THIRD; Some GENDER_NEUTER], 52);
  ([Some NUMBER_SINGULAR; Some CASE_PREPOSITIONAL; Some PERSON_THIRD; Some GENDER_FEMININE], 53);
  ([Some NUMBER_PLURAL; Some CASE_NOMINATIVE; Some PERSON_FIRST; None], 54);
  ([Some NUMBER_PLURAL; Some CASE_NOMINATIVE; Some PERSON_SECOND; None], 55);
  ([Some NUMBER_PLURAL; Some CASE_NOMINATIVE; Some PERSON_THIRD; None], 56);
  ([Some NUMBER_PLURAL; Some CASE_GENITIVE; Some PERSON_FIRST; None], 57);
  ([Some NUMBER_PLURAL; Some CASE_GENITIVE; Some PERSON_SECOND; None], 58);
  ([Some NUMBER_PLURAL; Some CASE_GENITIVE; Some PERSON_THIRD; None], 59);
  ([Some NUMBER_PLURAL; Some CASE_DATIVE; Some PERSON_FIRST; None], 60);
  ([Some NUMBER_PLURAL; Some CASE_DATIVE; Some PERSON_SECOND; None], 61);
  ([Some NUMBER_PLURAL; Some CASE_DATIVE; Some PERSON_THIRD; None], 62);
  ([Some NUMBER_PLURAL; Some CASE_ACCUSATIVE; Some PERSON_FIRST; None], 63);
  ([Some NUMBER_PLURAL; Some CASE_ACCUSATIVE; Some PERSON_SECOND; None], 64);
  ([Some NUMBER_PLURAL; Some CASE_ACCUSATIVE; Some PERSON_THIRD; None], 65);
  ([Some NUMBER_PLURAL; Some CASE_INSTRUMENTAL; Some PERSON_FIRST; None], 66);
  ([Some NUMBER_PLURAL; Some CASE_INSTRUMENTAL; Some PERSON_SECOND; None], 67);
  ([Some NUMBER_PLURAL; Some CASE_INSTRUMENTAL; Some PERSON_THIRD; None], 68);
  ([Some NUMBER_PLURAL; Some CASE_PREPOSITIONAL; Some PERSON_FIRST; None], 69);
  ([Some NUMBER_PLURAL; Some CASE_PREPOSITIONAL; Some PERSON_SECOND; None], 70);
  ([Some NUMBER_PLURAL; Some CASE_PREPOSITIONAL; Some PERSON_THIRD; None], 71)
].

(** utg/migrations/m_0008_lower_animiality_nearest_priority.py:586-605 *)
Definition m8_NEW_CACHES_VERB : dict key nat := dict_literal [
  ([Some VERB_FORM_INFINITIVE; None; None; None; None], 0);
  ([Some VERB_FORM_INDICATIVE; Some TIME_PAST; Some NUMBER_SINGULAR; None; Some GENDER_MASCULINE], 1);
  ([Some VERB_FORM_INDICATIVE; Some TIME_PAST; Some NUMBER_SINGULAR; None; Some GENDER_NEUTER], 2);
  ([Some VERB_FORM_INDICATIVE; Some TIME_PAST; Some NUMBER_SINGULAR; None; Some GENDER_FEMININE], 3);
  ([Some VERB_FORM_INDICATIVE; Some TIME_PAST; Some NUMBER_PLURAL; None; None], 4);
  ([Some VERB_FORM_INDICATIVE; Some TIME_PRESENT; Some NUMBER_SINGULAR; Some PERSON_FIRST; None], 5);
  ([Some VERB_FORM_INDICATIVE; Some TIME_PRESENT; Some NUMBER_SINGULAR; Some PERSON_SECOND; None], 6);
  ([Some VERB_FORM_INDICATIVE; Some TIME_PRESENT; Some NUMBER_SINGULAR; Some PERSON_THIRD; None], 7);
  ([Some VERB_FORM_INDICATIVE; Some TIME_PRESENT; Some NUMBER_PLURAL; Some PERSON_FIRST; None], 8);
  ([Some VERB_FORM_INDICATIVE; Some TIME_PRESENT; Some NUMBER_PLURAL; Some PERSON_SECOND; None], 9);
  ([Some VERB_FORM_INDICATIVE; Some TIME_PRESENT; Some NUMBER_PLURAL; Some PERSON_THIRD; None], 10);
  ([Some VERB_FORM_INDICATIVE; Some TIME_FUTURE; Some NUMBER_SINGULAR; Some PERSON_FIRST; None], 11);
  ([Some VERB_FORM_INDICATIVE; Some TIME_FUTURE; Some NUMBER_SINGULAR; Some PERSON_SECOND; None], 12);
  ([Some VERB_FORM_INDICATIVE; Some TIME_FUTURE; Some NUMBER_SINGULAR; Some PERSON_THIRD; None], 13);
  ([Some VERB_FORM_INDICATIVE; Some TIME_FUTURE; Some NUMBER_PLURAL; Some PERSON_FIRST; None], 14);
  ([Some VERB_FORM_INDICATIVE; Some TIME_FUTURE; Some NUMBER_PLURAL; Some PERSON_SECOND; None], 15);
  ([Some VERB_FORM_INDICATIVE; Some TIME_FUTURE; Some NUMBER_PLURAL; Some PERSON_THIRD; None], 16);
  ([Some VERB_FORM_IMPERATIVE; None; Some NUMBER_SINGULAR; Some PERSON_SECOND; None], 17);
  ([Some VERB_FORM_IMPERATIVE; None; Some NUMBER_PLURAL; Some PERSON_FIRST; None], 18);
  ([Some VERB_FORM_IMPERATIVE; None; Some NUMBER_PLURAL; Some PERSON_SECOND; None], 19)
].

(** utg/migrations/m_0008_lower_animiality_nearest_priority.py:606-753 *)
Definition m8_NEW_CACHES_PARTICIPLE : dict key nat := dict_literal [
  ([Some PARTICIPLE_FORM_FULL; Some TIME_PAST; Some ANIMALITY_ANIMATE; Some NUMBER_SINGULAR; Some CASE_NOMINATIVE; Some GENDER_MASCULINE], 0);
  ([Some PARTICIPLE_FORM_FULL; Some TIME_PAST; Some ANIMALITY_ANIMATE; Some NUMBER_SINGULAR; Some CASE_NOMINATIVE; Some GENDER_NEUTER], 1);
  ([Some PARTICIPLE_FORM_FULL; Some TIME_PAST; Some ANIMALITY_ANIMATE; Some NUMBER_SINGULAR; Some CASE_NOMINATIVE; Some GENDER_FEMININE], 2);
  ([Some PARTICIPLE_FORM_FULL; Some TIME_PAST; Some ANIMALITY_ANIMATE; Some NUMBER_SINGULAR; Some CASE_GENITIVE; Some GENDER_MASCULINE], 3);
  ([Some PARTICIPLE_FORM_FULL; Some TIME_PAST; Some ANIMALITY_ANIMATE; Some NUMBER_SINGULAR; Some CASE_GENITIVE; Some GENDER_NEUTER], 4);
  ([Some PARTICIPLE_FORM_FULL; Some TIME_PAST; Some ANIMALITY_ANIMATE; Some NUMBER_SINGULAR; Some CASE_GENITIVE; Some GENDER_FEMININE], 5);
  ([Some PARTICIPLE_FORM_FULL; Some TIME_PAST; Some ANIMALITY_ANIMATE; Some NUMBER_SINGULAR; Some CASE_DATIVE; Some GENDER_MASCULINE], 6);
  ([Some PARTICIPLE_FORM_FULL; Some TIME_PAST; Some ANIMALITY_ANIMATE; Some NUMBER_SINGULAR; Some CASE_DATIVE; Some GENDER_NEUTER], 7);
  ([Some PARTICIPLE_FORM_FULL; Some TIME_PAST; Some ANIMALITY_ANIMATE; Some NUMBER_SINGULAR; Some CASE_DATIVE; Some GENDER_FEMININE], 8);
  ([Some PARTICIPLE_FORM_FULL; Some TIME_PAST; Some ANIMALITY_ANIMATE; Some NUMBER_SINGULAR; Some CASE_ACCUSATIVE; Some GENDER_MASCULINE], 9);
  ([Some PARTICIPLE_FORM_FULL; Some TIME_PAST; Some ANIMALITY_ANIMATE; Some NUMBER_SINGULAR; Some CASE_ACCUSATIVE; Some GENDER_NEUTER], 10);
  ([Some PARTICIPLE_FORM_FULL; Some TIME_PAST; Some ANIMALITY_ANIMATE; Some NUMBER_SINGULAR; Some CASE_ACCUSATIVE; Some GENDER_FEMININE], 11);
  ([Some PARTICIPLE_FORM_FULL; Some TIME_PAST; Some ANIMALITY_ANIMATE; Some NUMBER_SINGULAR; Some CASE_INSTRUMENTAL; Some GENDER_MASCULINE], 12);
  ([Some PARTICIPLE_FORM_FULL; Some TIME_PAST; Some ANIMALITY_ANIMATE; Some NUMBER_SINGULAR; Some CASE_INSTRUMENTAL; Some GENDER_NEUTER], 13);
  ([Some PARTICIPLE_FORM_FULL; Some TIME_PAST; Some ANIMALITY_ANIMATE; Some NUMBER_SINGULAR; Some CASE_INSTRUMENTAL; Some GENDER_FEMININE], 14);
  ([Some PARTICIPLE_FORM_FULL; Some TIME_PAST; Some ANIMALITY_ANIMATE; Some NUMBER_SINGULAR; Some CASE_PREPOSITIONAL; Some GENDER_MASCULINE], 15);
  ([Some PARTICIPLE_FORM_FULL; Some TIME_PAST; Some ANIMALITY_ANIMATE; Some NUMBER_SINGULAR; Some CASE_PREPOSITIONAL; Some GENDER_NEUTER], 16);
  ([Some PARTICIPLE_FORM_FULL; Some TIME_PAST; Some ANIMALITY_ANIMATE; Some NUMBER_SINGULAR; Some CASE_PREPOSITIONAL; Some GENDER_FEMININE], 17);
  ([Some PARTICIPLE_FORM_FULL; Some TIME_PAST; Some ANIMALITY_ANIMATE; Some NUMBER_PLURAL; Some CASE_NOMINATIVE; None], 18);
  ([Some PARTICIPLE_FORM_FULL; Some TIME_PAST; Some ANIMALITY_ANIMATE; Some NUMBER_PLURAL; Some CASE_GENITIVE; None], 19);
  ([Some PARTICIPLE_FORM_FULL; Some TIME_PAST; Some ANIMALITY_ANIMATE; Some NUMBER_PLURAL; Some CASE_DATIVE; None], 20);
  ([Some PARTICIPLE_FORM_FULL; Some TIME_PAST; Some ANIMALITY_ANIMATE; Some NUMBER_PLURAL; Some CASE_ACCUSATIVE; None], 21);
  ([Some PARTICIPLE_FORM_FULL; Some TIME_PAST; Some ANIMALITY_ANIMATE; Some NUMBER_PLURAL; Some CASE_INSTRUMENTAL; None], 22);
  ([Some PARTICIPLE_FORM_FULL; Some TIME_PAST; Some ANIMALITY_ANIMATE; Some NUMBER_PLURAL; Some CASE_PREPOSITIONAL; None], 23);
  ([Some PARTICIPLE_FORM_FULL; Some TIME_PAST; Some ANIMALITY_INANIMATE; Some NUMBER_SINGULAR; Some CASE_NOMINATIVE; Some GENDER_MASCULINE], 24);
  ([Some PARTICIPLE_FORM_FULL; Some TIME_PAST; Some ANIMALITY_INANIMATE; Some NUMBER_SINGULAR; Some CASE_NOMINATIVE; Some GENDER_NEUTER], 25);
  ([Some PARTICIPLE_FORM_FULL; Some TIME_PAST; Some ANIMALITY_INANIMATE; Some NUMBER_SINGULAR; Some CASE_NOMINATIVE; Some GENDER_FEMININE], 26);
  ([Some PARTICIPLE_FORM_FULL; Some TIME_PAST; Some ANIMALITY_INANIMATE; Some NUMBER_SINGULAR; Some CASE_GENITIVE; Some GENDER_MASCULINE], 27);
  ([Some PARTICIPLE_FORM_FULL; Some TIME_PAST; Some ANIMALITY_INANIMATE; Some NUMBER_SINGULAR; Some CASE_GENITIVE; Some GENDER_NEUTER], 28);
  ([Some PARTICIPLE_FORM_FULL; Some TIME_PAST; Some ANIMALITY_INANIMATE; Some NUMBER_SINGULAR; Some CASE_GENITIVE; Some GENDER_FEMININE], 29);
  ([Some PARTICIPLE_FORM_FULL; Some TIME_PAST; Some ANIMALITY_INANIMATE; Some NUMBER_SINGULAR; Some CASE_DATIVE; Some GENDER_MASCULINE], 30);
  ([Some PARTICIPLE_FORM_FULL; Some TIME_PAST; Some ANIMALITY_INANIMATE; Some NUMBER_SINGULAR; Some CASE_DATIVE; Some GENDER_NEUTER], 31);
  ([Some PARTICIPLE_FORM_FULL; Some TIME_PAST; Some ANIMALITY_INANIMATE; Some NUMBER_SINGULAR; Some CASE_DATIVE; Some GENDER_FEMININE], 32);
  ([Some PARTICIPLE_FORM_FULL; Some TIME_PAST; Some ANIMALITY_INANIMATE; Some NUMBER_SINGULAR; Some CASE_ACCUSATIVE; Some GENDER_MASCULINE], 33);
  ([Some PARTICIPLE_FORM_FULL; Some TIME_PAST; Some ANIMALITY_INANIMATE; Some NUMBER_SINGULAR; Some CASE_ACCUSATIVE; Some GENDER_NEUTER], 34);
  ([Some PARTICIPLE_FORM_FULL; Some TIME_PAST; Some ANIMALITY_INANIMATE; Some NUMBER_SINGULAR; Some CASE_ACCUSATIVE; Some GENDER_FEMININE], 35);
  ([Some PARTICIPLE_FORM_FULL; Some TIME_PAST; Some ANIMALITY_INANIMATE; Some NUMBER_SINGULAR; Some CASE_INSTRUMENTAL; Some GENDER_MASCULINE], 36);
  ([Some PARTICIPLE_FORM_FULL; Some TIME_PAST; Some ANIMALITY_INANIMATE; Some NUMBER_SINGULAR; Some CASE_INSTRUMENTAL; Some GENDER_NEUTER], 37);
  ([Some PARTICIPLE_FORM_FULL; Some TIME_PAST; Some ANIMALITY_INANIMATE; Some NUMBER_SINGULAR; Some CASE_INSTRUMENTAL; Some GENDER_FEMININE], 38);
  ([Some PARTICIPLE_FORM_FULL; Some TIME_PAST; Some ANIMALITY_INANIMATE; Some NUMBER_SINGULAR; Some CASE_PREPOSITIONAL; Some GENDER_MASCULINE], 39);
  ([Some PARTICIPLE_FORM_FULL; Some TIME_PAST; Some ANIMALITY_INANIMATE; Some NUMBER_SINGULAR; Some CASE_PREPOSITIONAL; Some GENDER_NEUTER], 40);
  ([Some PARTICIPLE_FORM_FULL; Some TIME_PAST; Some ANIMALITY_INANIMATE; Some NUMBER_SINGULAR; Some CASE_PREPOSITIONAL; Some GENDER_FEMININE], 41);
  ([Some PARTICIPLE_FORM_FULL; Some TIME_PAST; Some ANIMALITY_INANIMATE; Some NUMBER_PLURAL; Some CASE_NOMINATIVE; None], 42);
  ([Some PARTICIPLE_FORM_FULL; Some TIME_PAST; Some ANIMALITY_INANIMATE; Some NUMBER_PLURAL; Some CASE_GENITIVE; None], 43);
  ([Some PARTICIPLE_FORM_FULL; Some TIME_PAST; Some ANIMALITY_INANIMATE; Some NUMBER_PLURAL; Some CASE_DATIVE; None], 44);
  ([Some PARTICIPLE_FORM_FULL; Some TIME_PAST; Some ANIMALITY_INANIMATE; Some NUMBER_PLURAL; Some CASE_ACCUSATIVE; None], 45);
  ([Some PARTICIPLE_FORM_FULL; Some TIME_PAST; Some ANIMALITY_INANIMATE; Some NUMBER_PLURAL; Some CASE_INSTRUMENTAL; None], 46);
  ([Some PARTICIPLE_FORM_FULL; Some TIME_PAST; Some ANIMALITY_INANIMATE; Some NUMBER_PLURAL; Some CASE_PREPOSITIONAL; None], 47);
  ([Some PARTICIPLE_FORM_FULL; Some TIME_PRESENT; Some ANIMALITY_ANIMATE; Some NUMBER_SINGULAR; Some CASE_NOMINATIVE; Some GENDER_MASCULINE], 48);
  ([Some PARTICIPLE_FORM_FULL; Some TIME_PRESENT; Some ANIMALITY_ANIMATE; Some NUMBER_SINGULAR; Some CASE_NOMINATIVE; Some GENDER_NEUTER], 49);
  ([Some PARTICIPLE_FORM_FULL; Some TIME_PRESENT; Some ANIMALITY_ANIMATE; Some NUMBER_SINGULAR; Some CASE_NOMINATIVE; Some GENDER_FEMININE], 50);
  ([Some PARTICIPLE_FORM_FULL; Some TIME_PRESENT; Some ANIMALITY_ANIMATE; Some NUMBER_SINGULAR; Some CASE_GENITIVE; Some GENDER_MASCULINE], 51);
  ([Some PARTICIPLE_FORM_FULL; Some TIME_PRESENT; Some ANIMALITY_ANIMATE; Some NUMBER_SINGULAR; Some CASE_GENITIVE; Some GENDER_NEUTER], 52);
  ([Some PARTICIPLE_FORM_FULL; Some TIME_PRESENT; Some ANIMALITY_ANIMATE; Some NUMBER_SINGULAR; Some CASE_GENITIVE; Some GENDER_FEMININE], 53);
  ([Some PARTICIPLE_FORM_FULL; Some TIME_PRESENT; Some ANIMALITY_ANIMATE; Some NUMBER_SINGULAR; Some CASE_DATIVE; Some GENDER_MASCULINE], 54);
  ([Some PARTICIPLE_FORM_FULL; Some TIME_PRESENT; Some ANIMALITY_ANIMATE; Some NUMBER_SINGULAR; Some CASE_DATIVE; Some GENDER_NEUTER], 55);
  ([Some PARTICIPLE_FORM_FULL; Some TIME_PRESENT; Some ANIMALITY_ANIMATE; Some NUMBER_SINGULAR; Some CASE_DATIVE; Some GENDER_FEMININE], 56);
  ([Some PARTICIPLE_FORM_FULL; Some TIME_PRESENT; Some ANIMALITY_ANIMATE; Some NUMBER_SINGULAR; Some CASE_ACCUSATIVE; Some GENDER_MASCULINE], 57);
  ([Some PARTICIPLE_FORM_FULL; Some TIME_PRESENT; Some ANIMALITY_ANIMATE; Some NUMBER_SINGULAR; Some CASE_ACCUSATIVE; Some GENDER_NEUTER], 58);
  ([Some PARTICIPLE_FORM_FULL; Some TIME_PRESENT; Some ANIMALITY_ANIMATE; Some NUMBER_SINGULAR; Some CASE_ACCUSATIVE; Some GENDER_FEMININE], 59);
  ([Some PARTICIPLE_FORM_FULL; Some TIME_PRESENT; Some ANIMALITY_ANIMATE; Some NUMBER_SINGULAR; Some CASE_INSTRUMENTAL; Some GENDER_MASCULINE], 60);
  ([Some PARTICIPLE_FORM_FULL; Some TIME_PRESENT; Some ANIMALITY_ANIMATE; Some NUMBER_SINGULAR; Some CASE_INSTRUMENTAL; Some GENDER_NEUTER], 61);
  ([Some PARTICIPLE_FORM_FULL; Some TIME_PRESENT; Some ANIMALITY_ANIMATE; Some NUMBER_SINGULAR; Some CASE_INSTRUMENTAL; Some GENDER_FEMININE], 62);
  ([Some PARTICIPLE_FORM_FULL; Some TIME_PRESENT; Some ANIMALITY_ANIMATE; Some NUMBER_SINGULAR; Some CASE_PREPOSITIONAL; Some GENDER_MASCULINE], 63);
  ([Some PARTICIPLE_FORM_FULL; Some TIME_PRESENT; Some ANIMALITY_ANIMATE; Some NUMBER_SINGULAR; Some CASE_PREPOSITIONAL; Some GENDER_NEUTER], 64);
  ([Some PARTICIPLE_FORM_FULL; Some TIME_PRESENT; Some ANIMALITY_ANIMATE; Some NUMBER_SINGULAR; Some CASE_PREPOSITIONAL; Some GENDER_FEMININE], 65);
  ([Some PARTICIPLE_FORM_FULL; Some TIME_PRESENT; Some ANIMALITY_ANIMATE; Some NUMBER_PLURAL; Some CASE_NOMINATIVE; None], 66);
  ([Some PARTICIPLE_FORM_FULL; Some TIME_PRESENT; Some ANIMALITY_ANIMATE; Some NUMBER_PLURAL; Some CASE_GENITIVE; None], 67);
  ([Some PARTICIPLE_FORM_FULL; Some TIME_PRESENT; Some ANIMALITY_ANIMATE; Some NUMBER_PLURAL; Some CASE_DATIVE; None], 68);
  ([Some PARTICIPLE_FORM_FULL; Some TIME_PRESENT; Some ANIMALITY_ANIMATE; Some NUMBER_PLURAL; Some CASE_ACCUSATIVE; None], 69);
  ([Some PARTICIPLE_FORM_FULL; Some TIME_PRESENT; Some ANIMALITY_ANIMATE; Some NUMBER_PLURAL; Some CASE_INSTRUMENTAL; None], 70);
  ([Some PARTICIPLE_FORM_FULL; Some TIME_PRESENT; Some ANIMALITY_ANIMATE; Some NUMBER_PLURAL; Some CASE_PREPOSITIONAL; None], 71);
  ([Some PARTICIPLE_FORM_FULL; Some TIME_PRESENT; Some ANIMALITY_INANIMATE; Some NUMBER_SINGULAR; Some CASE_NOMINATIVE; Some GENDER_MASCULINE], 72);
  ([Some PARTICIPLE_FORM_FULL; Some TIME_PRESENT; Some ANIMALITY_INANIMATE; Some NUMBER_SINGULAR; Some CASE_NOMINATIVE; Some GENDER_NEUTER], 73);
  ([Some PARTICIPLE_FORM_FULL; Some TIME_PRESENT; Some ANIMALITY_INANIMATE; Some NUMBER_SINGULAR; Some CASE_NOMINATIVE; Some GENDER_FEMININE], 74);
  ([Some PARTICIPLE_FORM_FULL; Some TIME_PRESENT; Some ANIMALITY_INANIMATE; Some NUMBER_SINGULAR; Some CASE_GENITIVE; Some GENDER_MASCULINE], 75);
  ([Some PARTICIPLE_FORM_FULL; Some TIME_PRESENT; Some ANIMALITY_INANIMATE; Some NUMBER_SINGULAR; Some CASE_GENITIVE; Some GENDER_NEUTER], 76);
  ([Some PARTICIPLE_FORM_FULL; Some TIME_PRESENT; Some ANIMALITY_INANIMATE; Some NUMBER_SINGULAR; Some CASE_GENITIVE; Some GENDER_FEMININE], 77);
  ([Some PARTICIPLE_FORM_FULL; Some TIME_PRESENT; Some ANIMALITY_INANIMATE; Some NUMBER_SINGULAR; Some CASE_DATIVE; Some GENDER_MASCULINE], 78);
  ([Some PARTICIPLE_FORM_FULL; Some TIME_PRESENT; Some ANIMALITY_INANIMATE; Some NUMBER_SINGULAR; Some CASE_DATIVE; Some GENDER_NEUTER], 79);
  ([Some PARTICIPLE_FORM_FULL; Some TIME_PRESENT; Some ANIMALITY_INANIMATE; Some NUMBER_SINGULAR; Some CASE_DATIVE; Some GENDER_FEMININE], 80);
  ([Some PARTICIPLE_FORM_FULL; Some TIME_PRESENT; Some ANIMALITY_INANIMATE; Some NUMBER_SINGULAR; Some CASE_ACCUSATIVE; Some GENDER_MASCULINE], 81);
  ([Some PARTICIPLE_FORM_FULL; Some TIME_PRESENT; Some ANIMALITY_INANIMATE; Some NUMBER_SINGULAR; Some CASE_ACCUSATIVE; Some GENDER_NEUTER], 82);
  ([Some PARTICIPLE_FORM_FULL; Some TIME_PRESENT; Some ANIMALITY_INANIMATE; Some NUMBER_SINGULAR; Some CASE_ACCUSATIVE; Some GENDER_FEMININE], 83);
  ([Some PARTICIPLE_FORM_FULL; Some TIME_PRESENT; Some ANIMALITY_INANIMATE; Some NUMBER_SINGULAR; Some CASE_INSTRUMENTAL; Some GENDER_MASCULINE], 84);
  ([Some PARTICIPLE_FORM_FULL; Some TIME_PRESENT; Some ANIMALITY_INANIMATE; Some NUMBER_SINGULAR; Some CASE_INSTRUMENTAL; Some GENDER_NEUTER], 85);
  ([Some PARTICIPLE_FORM_FULL; Some TIME_PRESENT; Some ANIMALITY_INANIMATE; Some NUMBER_SINGULAR; Some CASE_INSTRUMENTAL; Some GENDER_FEMININE], 86);
  ([Some PARTICIPLE_FORM_FULL; Some TIME_PRESENT; Some ANIMALITY_INANIMATE; Some NUMBER_SINGULAR; Some CASE_PREPOSITIONAL; Some GENDER_MASCULINE], 87);
  ([Some PARTICIPLE_FORM_FULL; Some TIME_PRESENT; Some ANIMALITY_INANIMATE; Some NUMBER_SINGULAR; Some CASE_PREPOSITIONAL; Some GENDER_NEUTER], 88);
  ([Some PARTICIPLE_FORM_FULL; Some TIME_PRESENT; Some ANIMALITY_INANIMATE; Some NUMBER_SINGULAR; Some CASE_PREPOSITIONAL; Some GENDER_FEMININE], 89);
  ([Some PARTICIPLE_FORM_FULL; Some TIME_PRESENT; Some ANIMALITY_INANIMATE; Some NUMBER_PLURAL; Some CASE_NOMINATIVE; None], 90);
  ([Some PARTICIPLE_FORM_FULL; Some TIME_PRESENT; Some ANIMALITY_INANIMATE; Some NUMBER_PLURAL; Some CASE_GENITIVE; None], 91);
  ([Some PARTICIPLE_FORM_FULL; Some TIME_PRESENT; Some ANIMALITY_INANIMATE; Some NUMBER_PLURAL; Some CASE_DATIVE; None], 92);
  ([Some PARTICIPLE_FORM_FULL; Some TIME_PRESENT; Some ANIMALITY_INANIMATE; Some NUMBER_PLURAL; Some CASE_ACCUSATIVE; None], 93);
  ([Some PARTICIPLE_FORM_FULL; Some TIME_PRESENT; Some ANIMALITY_INANIMATE; Some NUMBER_PLURAL; Some CASE_INSTRUMENTAL; None], 94);
  ([Some PARTICIPLE_FORM_FULL; Some TIME_PRESENT; Some ANIMALITY_INANIMATE; Some NUMBER_PLURAL; Some CASE_PREPOSITIONAL; None], 95);
  ([Some PARTICIPLE_FORM_FULL; Some TIME_FUTURE; Some ANIMALITY_ANIMATE; Some NUMBER_SINGULAR; Some CASE_NOMINATIVE; Some GENDER_MASCULINE], 96);
  ([Some PARTICIPLE_FORM_FULL; Some TIME_FUTURE; Some ANIMALITY_ANIMATE; Some NUMBER_SINGULAR; Some CASE_NOMINATIVE; Some GENDER_NEUTER], 97);
  ([Some PARTICIPLE_FORM_FULL; Some TIME_FUTURE; Some ANIMALITY_ANIMATE; Some NUMBER_SINGULAR; Some CASE_NOMINATIVE; Some GENDER_FEMININE], 98);
  ([Some PARTICIPLE_FORM_FULL; Some TIME_FUTURE; Some ANIMALITY_ANIMATE; Some NUMBER_SINGULAR; Some CASE_GENITIVE; Some GENDER_MASCULINE], 99);
  ([Some PARTICIPLE_FORM_FULL; Some TIME_FUTURE; Some ANIMALITY_ANIMATE; Some NUMBER_SINGULAR; Some CASE_GENITIVE; Some GENDER_NEUTER], 100);
  ([Some PARTICIPLE_FORM_FULL; Some TIME_FUTURE; Some ANIMALITY_ANIMATE; Some NUMBER_SINGULAR; Some CASE_GENITIVE; Some GENDER_FEMININE], 101);
  ([Some PARTICIPLE_FORM_FULL; Some TIME_FUTURE; Some ANIMALITY_ANIMATE; Some NUMBER_SINGULAR; Some CASE_DATIVE; Some GENDER_MASCULINE], 102);
  ([Some PARTICIPLE_FORM_FULL; Some TIME_FUTURE; Some ANIMALITY_ANIMATE; Some NUMBER_SINGULAR; Some CASE_DATIVE; Some GENDER_NEUTER], 103);
  ([Some PARTICIPLE_FORM_FULL; Some TIME_FUTURE; Some ANIMALITY_ANIMATE; Some NUMBER_SINGULAR; Some CASE_DATIVE; Some GENDER_FEMININE], 104);
  ([Some PARTICIPLE_FORM_FULL; Some TIME_FUTURE; Some ANIMALITY_ANIMATE; Some NUMBER_SINGULAR; Some CASE_ACCUSATIVE; Some GENDER_MASCULINE], 105);
  ([Some PARTICIPLE_FORM_FULL; Some TIME_FUTURE; Some ANIMALITY_ANIMATE; Some NUMBER_SINGULAR; Some CASE_ACCUSATIVE; Some GENDER_NEUTER], 106);
  ([Some PARTICIPLE_FORM_FULL; Some TIME_FUTURE; Some ANIMALITY_ANIMATE; Some NUMBER_SINGULAR; Some CASE_ACCUSATIVE; Some GENDER_FEMININE], 107);
  ([Some PARTICIPLE_FORM_FULL; Some TIME_FUTURE; Some ANIMALITY_ANIMATE; Some NUMBER_SINGULAR; Some CASE_INSTRUMENTAL; Some GENDER_MASCULINE], 108);
  ([Some PARTICIPLE_FORM_FULL; Some TIME_FUTURE; Some ANIMALITY_ANIMATE; Some NUMBER_SINGULAR; Some CASE_INSTRUMENTAL; Some GENDER_NEUTER], 109);
  ([Some PARTICIPLE_FORM_FULL; Some TIME_FUTURE; Some ANIMALITY_ANIMATE; Some NUMBER_SINGULAR; Some CASE_INSTRUMENTAL; Some GENDER_FEMININE], 110);
  ([Some PARTICIPLE_FORM_FULL; Some TIME_FUTURE; Some ANIMALITY_ANIMATE; Some NUMBER_SINGULAR; Some CASE_PREPOSITIONAL; Some GENDER_MASCULINE], 111);
  ([Some PARTICIPLE_FORM_FULL; Some TIME_FUTURE; Some ANIMALITY_ANIMATE; Some NUMBER_SINGULAR; Some CASE_PREPOSITIONAL; Some GENDER_NEUTER], 112);
  ([Some PARTICIPLE_FORM_FULL; Some TIME_FUTURE; Some ANIMALITY_ANIMATE; Some NUMBER_SINGULAR; Some CASE_PREPOSITIONAL; Some GENDER_FEMININE], 113);
  ([Some PARTICIPLE_FORM_FULL; Some TIME_FUTURE; Some ANIMALITY_ANIMATE; Some NUMBER_PLURAL; Some CASE_NOMINATIVE; None], 114);
  ([Some PARTICIPLE_FORM_FULL; Some TIME_FUTURE; Some ANIMALITY_ANIMATE; Some NUMBER_PLURAL; Some CASE_GENITIVE; None], 115);
  ([Some PARTICIPLE_FORM_FULL; Some TIME_FUTURE; Some ANIMALITY_ANIMATE; Some NUMBER_PLURAL; Some CASE_DATIVE; None], 116);
  ([Some PARTICIPLE_FORM_FULL; Some TIME_FUTURE; Some ANIMALITY_ANIMATE; Some NUMBER_PLURAL; Some CASE_ACCUSATIVE; None], 117);
  ([Some PARTICIPLE_FORM_FULL; Some TIME_FUTURE; Some ANIMALITY_ANIMATE; Some NUMBER_PLURAL; Some CASE_INSTRUMENTAL; None], 118);
  ([Some PARTICIPLE_FORM_FULL; Some TIME_FUTURE; Some ANIMALITY_ANIMATE; Some NUMBER_PLURAL; Some CASE_PREPOSITIONAL; None], 119);
  ([Some PARTICIPLE_FORM_FULL; Some TIME_FUTURE; Some ANIMALITY_INANIMATE; Some NUMBER_SINGULAR; Some CASE_NOMINATIVE; Some GENDER_MASCULINE], 120);
  ([Some PARTICIPLE_FORM_FULL; Some TIME_FUTURE; Some ANIMALITY_INANIMATE; Some NUMBER_SINGULAR; Some CASE_NOMINATIVE; Some GENDER_NEUTER], 121);
  ([Some PARTICIPLE_FORM_FULL; Some TIME_FUTURE; Some ANIMALITY_INANIMATE; Some NUMBER_SINGULAR; Some CASE_NOMINATIVE; Some GENDER_FEMININE], 122);
  ([Some PARTICIPLE_FORM_FULL; Some TIME_FUTURE; Some ANIMALITY_INANIMATE; Some NUMBER_SINGULAR; Some CASE_GENITIVE; Some GENDER_MASCULINE], 123);
  ([Some PARTICIPLE_FORM_FULL; Some TIME_FUTURE; Some ANIMALITY_INANIMATE; Some NUMBER_SINGULAR; Some CASE_GENITIVE; Some GENDER_NEUTER], 124);
  ([Some PARTICIPLE_FORM_FULL; Some TIME_FUTURE; Some ANIMALITY_INANIMATE; Some NUMBER_SINGULAR; Some CASE_GENITIVE; Some GENDER_FEMININE], 125);
  ([Some PARTICIPLE_FORM_FULL; Some TIME_FUTURE; Some ANIMALITY_INANIMATE; Some NUMBER_SINGULAR; Some CASE_DATIVE; Some GENDER_MASCULINE], 126);
  ([Some PARTICIPLE_FORM_FULL; Some TIME_FUTURE; Some ANIMALITY_INANIMATE; Some NUMBER_SINGULAR; Some CASE_DATIVE; Some GENDER_NEUTER], 127);
  ([Some PARTICIPLE_FORM_FULL; Some TIME_FUTURE; Some ANIMALITY_INANIMATE; Some NUMBER_SINGULAR; Some CASE_DATIVE; Some GENDER_FEMININE], 128);
  ([Some PARTICIPLE_FORM_FULL; Some TIME_FUTURE; Some ANIMALITY_INANIMATE; Some NUMBER_SINGULAR; Some CASE_ACCUSATIVE; Some GENDER_MASCULINE], 129);
  ([Some PARTICIPLE_FORM_FULL; Some TIME_FUTURE; Some ANIMALITY_INANIMATE; Some NUMBER_SINGULAR; Some CASE_ACCUSATIVE; Some GENDER_NEUTER], 130);
  ([Some PARTICIPLE_FORM_FULL; Some TIME_FUTURE; Some ANIMALITY_INANIMATE; Some NUMBER_SINGULAR; Some CASE_ACCUSATIVE; Some GENDER_FEMININE], 131);
  ([Some PARTICIPLE_FORM_FULL; Some TIME_FUTURE; Some ANIMALITY_INANIMATE; Some NUMBER_SINGULAR; Some CASE_INSTRUMENTAL; Some GENDER_MASCULINE], 132);
  ([Some PARTICIPLE_FORM_FULL; Some TIME_FUTURE; Some ANIMALITY_INANIMATE; Some NUMBER_SINGULAR; Some CASE_INSTRUMENTAL; Some GENDER_NEUTER], 133);
  ([Some PARTICIPLE_FORM_FULL; Some TIME_FUTURE; Some ANIMALITY_INANIMATE; Some NUMBER_SINGULAR; Some CASE_INSTRUMENTAL; Some GENDER_FEMININE], 134);
  ([Some PARTICIPLE_FORM_FULL; Some TIME_FUTURE; Some ANIMALITY_INANIMATE; Some NUMBER_SINGULAR; Some CASE_PREPOSITIONAL; Some GENDER_MASCULINE], 135);
  ([Some PARTICIPLE_FORM_FULL; Some TIME_FUTURE; Some ANIMALITY_INANIMATE; Some NUMBER_SINGULAR; Some CASE_PREPOSITIONAL; Some GENDER_NEUTER], 136);
  ([Some PARTICIPLE_FORM_FULL; Some TIME_FUTURE; Some ANIMALITY_INANIMATE; Some NUMBER_SINGULAR; Some CASE_PREPOSITIONAL; Some GENDER_FEMININE], 137);
  ([Some PARTICIPLE_FORM_FULL; Some TIME_FUTURE; Some ANIMALITY_INANIMATE; Some NUMBER_PLURAL; Some CASE_NOMINATIVE; None], 138);
  ([Some PARTICIPLE_FORM_FULL; Some TIME_FUTURE; Some ANIMALITY_INANIMATE; Some NUMBER_PLURAL; Some CASE_GENITIVE; None], 139);
  ([Some PARTICIPLE_FORM_FULL; Some TIME_FUTURE; Some ANIMALITY_INANIMATE; Some NUMBER_PLURAL; Some CASE_DATIVE; None], 140);
  ([Some PARTICIPLE_FORM_FULL; Some TIME_FUTURE; Some ANIMALITY_INANIMATE; Some NUMBER_PLURAL; Some CASE_ACCUSATIVE; None], 141);
  ([Some PARTICIPLE_FORM_FULL; Some TIME_FUTURE; Some ANIMALITY_INANIMATE; Some NUMBER_PLURAL; Some CASE_INSTRUMENTAL; None], 142);
  ([Some PARTICIPLE_FORM_FULL; Some TIME_FUTURE; Some ANIMALITY_INANIMATE; Some NUMBER_PLURAL; Some CASE_PREPOSITIONAL; None], 143);
  ([Some PARTICIPLE_FORM_SHORT; None; None; Some NUMBER_SINGULAR; None; Some GENDER_MASCULINE], 144);
  ([Some PARTICIPLE_FORM_SHORT; None; None; Some NUMBER_SINGULAR; None; Some GENDER_NEUTER], 145);
  ([Some PARTICIPLE_FORM_SHORT; None; None; Some NUMBER_SINGULAR; None; Some GENDER_FEMININE], 146);
  ([Some PARTICIPLE_FORM_SHORT; None; None; Some NUMBER_PLURAL; None; None], 147)
].

(** utg/migrations/m_0008_lower_animiality_nearest_priority.py:754-754 *)
Definition m8_NEW_CACHES_INTEGER : dict key nat := dict_literal [
  ([], 0)
].

(** utg/migrations/m_0008_lower_animiality_nearest_priority.py:755-755 *)
Definition m8_NEW_CACHES_TEXT : dict key nat := dict_literal [
  ([], 0)
].

(** utg/migrations/m_0008_lower_animiality_nearest_priority.py:756-758 *)
Definition m8_NEW_CACHES_PREPOSITION : dict key nat := dict_literal [
  ([Some PREPOSITION_FORM_NORMAL], 0);
  ([Some PREPOSITION_FORM_ALTERNATIVE], 1);
  ([Some PREPOSITION_FORM_SPECIAL], 2)
].

(** utg/migrations/m_0008_lower_animiality_nearest_priority.py:395 *)
Definition m8_NEW_CACHES (t : word_type) : dict key nat :=
  match t with
  | WT_NOUN => m8_NEW_CACHES_NOUN
  | WT_ADJECTIVE => m8_NEW_CACHES_ADJECTIVE
  | WT_PRONOUN => m8_NEW_CACHES_PRONOUN
  | WT_VERB => m8_NEW_CACHES_VERB
  | WT_PARTICIPLE => m8_NEW_CACHES_PARTICIPLE
  | WT_INTEGER => m8_NEW_CACHES_INTEGER
  | WT_TEXT => m8_NEW_CACHES_TEXT
  | WT_PREPOSITION => m8_NEW_CACHES_PREPOSITION
  end.

(** utg/migrations/m_0009_pronoun_modernization.py:28-45 *)
Definition m9_OLD_CACHES_NOUN : dict key nat := dict_literal [
  ([Some NOUN_FORM_NORMAL; Some NUMBER_SINGULAR; Some CASE_NOMINATIVE], 0);
  ([Some NOUN_FORM_NORMAL; Some NUMBER_SINGULAR; Some CASE_GENITIVE], 1);
  ([Some NOUN_FORM_NORMAL; Some NUMBER_SINGULAR; Some CASE_DATIVE], 2);
  ([Some NOUN_FORM_NORMAL; Some NUMBER_SINGULAR; Some CASE_ACCUSATIVE], 3);
  ([Some NOUN_FORM_NORMAL; Some NUMBER_SINGULAR; Some CASE_INSTRUMENTAL], 4);
  ([Some NOUN_FORM_NORMAL; Some NUMBER_SINGULAR; Some CASE_PREPOSITIONAL], 5);
  ([Some NOUN_FORM_NORMAL; Some NUMBER_PLURAL; Some CASE_NOMINATIVE], 6);
  ([Some NOUN_FORM_NORMAL; Some NUMBER_PLURAL; Some CASE_GENITIVE], 7);
  ([Some NOUN_FORM_NORMAL; Some NUMBER_PLURAL; Some CASE_DATIVE], 8);
  ([Some NOUN_FORM_NORMAL; Some NUMBER_PLURAL; Some CASE_ACCUSATIVE], 9);
  ([Some NOUN_FORM_NORMAL; Some NUMBER_PLURAL; Some CASE_INSTRUMENTAL], 10);
  ([Some NOUN_FORM_NORMAL; Some NUMBER_PLURAL; Some CASE_PREPOSITIONAL], 11);
  ([Some NOUN_FORM_COUNTABLE; Some NUMBER_PLURAL; Some CASE_NOMINATIVE], 12);
  ([Some NOUN_FORM_COUNTABLE; Some NUMBER_PLURAL; Some CASE_GENITIVE], 13);
  ([Some NOUN_FORM_COUNTABLE; Some NUMBER_PLURAL; Some CASE_DATIVE], 14);
  ([Some NOUN_FORM_COUNTABLE; Some NUMBER_PLURAL; Some CASE_ACCUSATIVE], 15);
  ([Some NOUN_FORM_COUNTABLE; Some NUMBER_PLURAL; Some CASE_INSTRUMENTAL], 16);
  ([Some NOUN_FORM_COUNTABLE; Some NUMBER_PLURAL; Some CASE_PREPOSITIONAL], 17)
].

(** utg/migrations/m_0009_pronoun_modernization.py:46-146 *)
Definition m9_OLD_CACHES_ADJECTIVE : dict key nat := dict_literal [
  ([Some ADJECTIVE_FORM_FULL; Some GRADE_POSITIVE; Some ANIMALITY_ANIMATE; Some NUMBER_SINGULAR; Some CASE_NOMINATIVE; Some GENDER_MASCULINE], 0);
  ([Some ADJECTIVE_FORM_FULL; Some GRADE_POSITIVE; Some ANIMALITY_ANIMATE; Some NUMBER_SINGULAR; Some CASE_NOMINATIVE; Some GENDER_NEUTER], 1);
  ([Some ADJECTIVE_FORM_FULL; Some GRADE_POSITIVE; Some ANIMALITY_ANIMATE; Some NUMBER_SINGULAR; Some CASE_NOMINATIVE; Some GENDER_FEMININE], 2);
  ([Some ADJECTIVE_FORM_FULL; Some GRADE_POSITIVE; Some ANIMALITY_ANIMATE; Some NUMBER_SINGULAR; Some CASE_GENITIVE; Some GENDER_MASCULINE], 3);
  ([Some ADJECTIVE_FORM_FULL; Some GRADE_POSITIVE; Some ANIMALITY_ANIMATE; Some NUMBER_SINGULAR; Some CASE_GENITIVE; Some GENDER_NEUTER], 4);
  ([Some ADJECTIVE_FORM_FULL; Some GRADE_POSITIVE; Some ANIMALITY_ANIMATE; Some NUMBER_SINGULAR; Some CASE_GENITIVE; Some GENDER_FEMININE], 5);
  ([Some ADJECTIVE_FORM_FULL; Some GRADE_POSITIVE; Some ANIMALITY_ANIMATE; Some NUMBER_SINGULAR; Some CASE_DATIVE; Some GENDER_MASCULINE], 6);
  ([Some ADJECTIVE_FORM_FULL; Some GRADE_POSITIVE; Some ANIMALITY_ANIMATE; Some NUMBER_SINGULAR; Some CASE_DATIVE; Some GENDER_NEUTER], 7);
  ([Some ADJECTIVE_FORM_FULL; Some GRADE_POSITIVE; Some ANIMALITY_ANIMATE; Some NUMBER_SINGULAR; Some CASE_DATIVE; Some GENDER_FEMININE], 8);
  ([Some ADJECTIVE_FORM_FULL; Some GRADE_POSITIVE; Some ANIMALITY_ANIMATE; Some NUMBER_SINGULAR; Some CASE_ACCUSATIVE; Some GENDER_MASCULINE], 9);
  ([Some ADJECTIVE_FORM_FULL; Some GRADE_POSITIVE; Some ANIMALITY_ANIMATE; Some NUMBER_SINGULAR; Some CASE_ACCUSATIVE; Some GENDER_NEUTER], 10);
  ([Some ADJECTIVE_FORM_FULL; Some GRADE_POSITIVE; Some ANIMALITY_ANIMATE; Some NUMBER_SINGULAR; Some CASE_ACCUSATIVE; Some GENDER_FEMININE], 11);
  ([Some ADJECTIVE_FORM_FULL; Some GRADE_POSITIVE; Some ANIMALITY_ANIMATE; Some NUMBER_SINGULAR; Some CASE_INSTRUMENTAL; Some GENDER_MASCULINE], 12);
  ([Some ADJECTIVE_FORM_FULL; Some GRADE_POSITIVE; Some ANIMALITY_ANIMATE; Some NUMBER_SINGULAR; Some CASE_INSTRUMENTAL; Some GENDER_NEUTER], 13);
  ([Some ADJECTIVE_FORM_FULL; Some GRADE_POSITIVE; Some ANIMALITY_ANIMATE; Some NUMBER_SINGULAR; Some CASE_INSTRUMENTAL; Some GENDER_FEMININE], 14);
  ([Some ADJECTIVE_FORM_FULL; Some GRADE_POSITIVE; Some ANIMALITY_ANIMATE; Some NUMBER_SINGULAR; Some CASE_PREPOSITIONAL; Some GENDER_MASCULINE], 15);
  ([Some ADJECTIVE_FORM_FULL; Some GRADE_POSITIVE; Some ANIMALITY_ANIMATE; Some NUMBER_SINGULAR; Some CASE_PREPOSITIONAL; Some GENDER_NEUTER], 16);
  ([Some ADJECTIVE_FORM_FULL; Some GRADE_POSITIVE; Some ANIMALITY_ANIMATE; Some NUMBER_SINGULAR; Some CASE_PREPOSITIONAL; Some GENDER_FEMININE], 17);
  ([Some ADJECTIVE_FORM_FULL; Some GRADE_POSITIVE; Some ANIMALITY_ANIMATE; Some NUMBER_PLURAL; Some CASE_NOMINATIVE; None], 18);
  ([Some ADJECTIVE_FORM_FULL; Some GRADE_POSITIVE; Some ANIMALITY_ANIMATE; Some NUMBER_PLURAL; Some CASE_GENITIVE; None], 19);
  ([Some ADJECTIVE_FORM_FULL; Some GRADE_POSITIVE; Some ANIMALITY_ANIMATE; Some NUMBER_PLURAL; Some CASE_DATIVE; None], 20);
  ([Some ADJECTIVE_FORM_FULL; Some GRADE_POSITIVE; Some ANIMALITY_ANIMATE; Some NUMBER_PLURAL; Some CASE_ACCUSATIVE; None], 21);
  ([Some ADJECTIVE_FORM_FULL; Some GRADE_POSITIVE; Some ANIMALITY_ANIMATE; Some NUMBER_PLURAL; Some CASE_INSTRUMENTAL; None], 22);
  ([Some ADJECTIVE_FORM_FULL; Some GRADE_POSITIVE; Some ANIMALITY_ANIMATE; Some NUMBER_PLURAL; Some CASE_PREPOSITIONAL; None], 23);
  ([Some ADJECTIVE_FORM_FULL; Some GRADE_POSITIVE; Some ANIMALITY_INANIMATE; Some NUMBER_SINGULAR; Some CASE_NOMINATIVE; Some GENDER_MASCULINE], 24);
  ([Some ADJECTIVE_FORM_FULL; Some GRADE_POSITIVE; Some ANIMALITY_INANIMATE; Some NUMBER_SINGULAR; Some CASE_NOMINATIVE; Some GENDER_NEUTER], 25);
  ([Some ADJECTIVE_FORM_FULL; Some GRADE_POSITIVE; Some ANIMALITY_INANIMATE; Some NUMBER_SINGULAR; Some CASE_NOMINATIVE; Some GENDER_FEMININE], 26);
  ([Some ADJECTIVE_FORM_FULL; Some GRADE_POSITIVE; Some ANIMALITY_INANIMATE; Some NUMBER_SINGULAR; Some CASE_GENITIVE; Some GENDER_MASCULINE], 27);
  ([Some ADJECTIVE_FORM_FULL; Some GRADE_POSITIVE; Some ANIMALITY_INANIMATE; Some NUMBER_SINGULAR; Some CASE_GENITIVE; Some GENDER_NEUTER], 28);
  ([Some ADJECTIVE_FORM_FULL; Some GRADE_POSITIVE; Some ANIMALITY_INANIMATE; Some NUMBER_SINGULAR; Some CASE_GENITIVE; Some GENDER_FEMININE], 29);
  ([Some ADJECTIVE_FORM_FULL; Some GRADE_POSITIVE; Some ANIMALITY_INANIMATE; Some NUMBER_SINGULAR; Some CASE_DATIVE; Some GENDER_MASCULINE], 30);
  ([Some ADJECTIVE_FORM_FULL; Some GRADE_POSITIVE; Some ANIMALITY_INANIMATE; Some NUMBER_SINGULAR; Some CASE_DATIVE; Some GENDER_NEUTER], 31);
  ([Some ADJECTIVE_FORM_FULL; Some GRADE_POSITIVE; Some ANIMALITY_INANIMATE; Some NUMBER_SINGULAR; Some CASE_DATIVE; Some GENDER_FEMININE], 32);
  ([Some ADJECTIVE_FORM_FULL; Some GRADE_POSITIVE; Some ANIMALITY_INANIMATE; Some NUMBER_SINGULAR; Some CASE_ACCUSATIVE; Some GENDER_MASCULINE], 33);
  ([Some ADJECTIVE_FORM_FULL; Some GRADE_POSITIVE; Some ANIMALITY_INANIMATE; Some NUMBER_SINGULAR; Some CASE_ACCUSATIVE; Some GENDER_NEUTER], 34);
  ([Some ADJECTIVE_FORM_FULL; Some GRADE_POSITIVE; Some ANIMALITY_INANIMATE; Some NUMBER_SINGULAR; Some CASE_ACCUSATIVE; Some GENDER_FEMININE], 35);
  ([Some ADJECTIVE_FORM_FULL; Some GRADE_POSITIVE; Some ANIMALITY_INANIMATE; Some NUMBER_SINGULAR; Some CASE_INSTRUMENTAL; Some GENDER_MASCULINE], 36);
  ([Some ADJECTIVE_FORM_FULL; Some GRADE_POSITIVE; Some ANIMALITY_INANIMATE; Some NUMBER_SINGULAR; Some CASE_INSTRUMENTAL; Some GENDER_NEUTER], 37);
  ([Some ADJECTIVE_FORM_FULL; Some GRADE_POSITIVE; Some ANIMALITY_INANIMATE; Some NUMBER_SINGULAR; Some CASE_INSTRUMENTAL; Some GENDER_FEMININE], 38);
  ([Some ADJECTIVE_FORM_FULL; Some GRADE_POSITIVE; Some ANIMALITY_INANIMATE; Some NUMBER_SINGULAR; Some CASE_PREPOSITIONAL; Some GENDER_MASCULINE], 39);
  ([Some ADJECTIVE_FORM_FULL; Some GRADE_POSITIVE; Some ANIMALITY_INANIMATE; Some NUMBER_SINGULAR; Some CASE_PREPOSITIONAL; Some GENDER_NEUTER], 40);
  ([Some ADJECTIVE_FORM_FULL; Some GRADE_POSITIVE; Some ANIMALITY_INANIMATE; Some NUMBER_SINGULAR; Some CASE_PREPOSITIONAL; Some GENDER_FEMININE], 41);
  ([Some ADJECTIVE_FORM_FULL; Some GRADE_POSITIVE; Some ANIMALITY_INANIMATE; Some NUMBER_PLURAL; Some CASE_NOMINATIVE; None], 42);
  ([Some ADJECTIVE_FORM_FULL; Some GRADE_POSITIVE; Some ANIMALITY_INANIMATE; Some NUMBER_PLURAL; Some CASE_GENITIVE; None], 43);
  ([Some ADJECTIVE_FORM_FULL; Some GRADE_POSITIVE; Some ANIMALITY_INANIMATE; Some NUMBER_PLURAL; Some CASE_DATIVE; None], 44);
  ([Some ADJECTIVE_FORM_FULL; Some GRADE_POSITIVE; Some ANIMALITY_INANIMATE; Some NUMBER_PLURAL; Some CASE_ACCUSATIVE; None], 45);
  ([Some ADJECTIVE_FORM_FULL; Some GRADE_POSITIVE; Some ANIMALITY_INANIMATE; Some NUMBER_PLURAL; Some CASE_INSTRUMENTAL; None], 46);
  ([Some ADJECTIVE_FORM_FULL; Some GRADE_POSITIVE; Some ANIMALITY_INANIMATE; Some NUMBER_PLURAL; Some CASE_PREPOSITIONAL; None], 47);
  ([Some ADJECTIVE_FORM_FULL; Some GRADE_COMPARATIVE; None; None; None; None], 48);
  ([Some ADJECTIVE_FORM_FULL; Some GRADE_SUPERLATIVE; Some ANIMALITY_ANIMATE; Some NUMBER_SINGULAR; Some CASE_NOMINATIVE; Some GENDER_MASCULINE], 49);
  ([Some ADJECTIVE_FORM_FULL; Some GRADE_SUPERLATIVE; Some ANIMALITY_ANIMATE; Some NUMBER_SINGULAR; Some CASE_NOMINATIVE; Some GENDER_NEUTER], 50);
  ([Some ADJECTIVE_FORM_FULL; Some GRADE_SUPERLATIVE; Some ANIMALITY_ANIMATE; Some NUMBER_SINGULAR; Some CASE_NOMINATIVE; Some GENDER_FEMININE], 51);
  ([Some ADJECTIVE_FORM_FULL; Some GRADE_SUPERLATIVE; Some ANIMALITY_ANIMATE; Some NUMBER_SINGULAR; Some CASE_GENITIVE; Some GENDER_MASCULINE], 52);
  ([Some ADJECTIVE_FORM_FULL; Some GRADE_SUPERLATIVE; Some ANIMALITY_ANIMATE; Some NUMBER_SINGULAR; Some CASE_GENITIVE; Some GENDER_NEUTER], 53);
  ([Some ADJECTIVE_FORM_FULL; Some GRADE_SUPERLATIVE; Some ANIMALITY_ANIMATE; Some NUMBER_SINGULAR; Some CASE_GENITIVE; Some GENDER_FEMININE], 54);
  ([Some ADJECTIVE_FORM_FULL; Some GRADE_SUPERLATIVE; Some ANIMALITY_ANIMATE; Some NUMBER_SINGULAR; Some CASE_DATIVE; Some GENDER_MASCULINE], 55);
  ([Some ADJECTIVE_FORM_FULL; Some GRADE_SUPERLATIVE; Some ANIMALITY_ANIMATE; Some NUMBER_SINGULAR; Some CASE_DATIVE; Some GENDER_NEUTER], 56);
  ([Some ADJECTIVE_FORM_FULL; Some GRADE_SUPERLATIVE; Some ANIMALITY_ANIMATE; Some NUMBER_SINGULAR; Some CASE_DATIVE; Some GENDER_FEMININE], 57);
  ([Some ADJECTIVE_FORM_FULL; Some GRADE_SUPERLATIVE; Some ANIMALITY_ANIMATE; Some NUMBER_SINGULAR; Some CASE_ACCUSATIVE; Some GENDER_MASCULINE], 58);
  ([Some ADJECTIVE_FORM_FULL; Some GRADE_SUPERLATIVE; Some ANIMALITY_ANIMATE; Some NUMBER_SINGULAR; Some CASE_ACCUSATIVE; Some GENDER_NEUTER], 59);
  ([Some ADJECTIVE_FORM_FULL; Some GRADE_SUPERLATIVE; Some ANIMALITY_ANIMATE; Some NUMBER_SINGULAR; Some CASE_ACCUSATIVE; Some GENDER_FEMININE], 60);
  ([Some ADJECTIVE_FORM_FULL; Some GRADE_SUPERLATIVE; Some ANIMALITY_ANIMATE; Some NUMBER_SINGULAR; Some CASE_INSTRUMENTAL; Some GENDER_MASCULINE], 61);
  ([Some ADJECTIVE_FORM_FULL; Some GRADE_SUPERLATIVE; Some ANIMALITY_ANIMATE; Some NUMBER_SINGULAR; Some CASE_INSTRUMENTAL; Some GENDER_NEUTER], 62);
  ([Some ADJECTIVE_FORM_FULL; Some GRADE_SUPERLATIVE; Some ANIMALITY_ANIMATE; Some NUMBER_SINGULAR; Some CASE_INSTRUMENTAL; Some GENDER_FEMININE], 63);
  ([Some ADJECTIVE_FORM_FULL; Some GRADE_SUPERLATIVE; Some ANIMALITY_ANIMATE; Some NUMBER_SINGULAR; Some CASE_PREPOSITIONAL; Some GENDER_MASCULINE], 64);
  ([Some ADJECTIVE_FORM_FULL; Some GRADE_SUPERLATIVE; Some ANIMALITY_ANIMATE; Some NUMBER_SINGULAR; Some CASE_PREPOSITIONAL; Some GENDER_NEUTER], 65);
  ([Some ADJECTIVE_FORM_FULL; Some GRADE_SUPERLATIVE; Some ANIMALITY_ANIMATE; Some NUMBER_SINGULAR; Some CASE_PREPOSITIONAL; Some GENDER_FEMININE], 66);
  ([Some ADJECTIVE_FORM_FULL; Some GRADE_SUPERLATIVE; Some ANIMALITY_ANIMATE; Some NUMBER_PLURAL; Some CASE_NOMINATIVE; None], 67);
  ([Some ADJECTIVE_FORM_FULL; Some GRADE_SUPERLATIVE; Some ANIMALITY_ANIMATE; Some NUMBER_PLURAL; Some CASE_GENITIVE; None], 68);
  ([Some ADJECTIVE_FORM_FULL; Some GRADE_SUPERLATIVE; Some ANIMALITY_ANIMATE; Some NUMBER_PLURAL; Some CASE_DATIVE; None], 69);
  ([Some ADJECTIVE_FORM_FULL; Some GRADE_SUPERLATIVE; Some ANIMALITY_ANIMATE; Some NUMBER_PLURAL; Some CASE_ACCUSATIVE; None], 70);
  ([Some ADJECTIVE_FORM_FULL; Some GRADE_SUPERLATIVE; Some ANIMALITY_ANIMATE; Some NUMBER_PLURAL; Some CASE_INSTRUMENTAL; None], 71);
  ([Some ADJECTIVE_FORM_FULL; Some GRADE_SUPERLATIVE; Some ANIMALITY_ANIMATE; Some NUMBER_PLURAL; Some CASE_PREPOSITIONAL; None], 72);
  ([Some ADJECTIVE_FORM_FULL; Some GRADE_SUPERLATIVE; Some ANIMALITY_INANIMATE; Some NUMBER_SINGULAR; Some CASE_NOMINATIVE; Some GENDER_MASCULINE], 73);
  ([Some ADJECTIVE_FORM_FULL; Some GRADE_SUPERLATIVE; Some ANIMALITY_INANIMATE; Some NUMBER_SINGULAR; Some CASE_NOMINATIVE; Some GENDER_NEUTER], 74);
  ([Some ADJECTIVE_FORM_FULL; Some GRADE_SUPERLATIVE; Some ANIMALITY_INANIMATE; Some NUMBER_SINGULAR; Some CASE_NOMINATIVE; Some GENDER_FEMININE], 75);
  ([Some ADJECTIVE_FORM_FULL; Some GRADE_SUPERLATIVE; Some ANIMALITY_INANIMATE; Some NUMBER_SINGULAR; Some CASE_GENITIVE; Some GENDER_MASCULINE], 76);
  ([Some ADJECTIVE_FORM_FULL; Some GRADE_SUPERLATIVE; Some ANIMALITY_INANIMATE; Some NUMBER_SINGULAR; Some CASE_GENITIVE; Some GENDER_NEUTER], 77);
  ([Some ADJECTIVE_FORM_FULL; Some GRADE_SUPERLATIVE; Some ANIMALITY_INANIMATE; Some NUMBER_SINGULAR; Some CASE_GENITIVE; Some GENDER_FEMININE], 78);
  ([Some ADJECTIVE_FORM_FULL; Some GRADE_SUPERLATIVE; Some ANIMALITY_INANIMATE; Some NUMBER_SINGULAR; Some CASE_DATIVE; Some GENDER_MASCULINE], 79);
  ([Some ADJECTIVE_FORM_FULL; Some GRADE_SUPERLATIVE; Some ANIMALITY_INANIMATE; Some NUMBER_SINGULAR; Some CASE_DATIVE; Some GENDER_NEUTER], 80);
  ([Some ADJECTIVE_FORM_FULL; Some GRADE_SUPERLATIVE; Some ANIMALITY_INANIMATE; Some NUMBER_SINGULAR; Some CASE_DATIVE; Some GENDER_FEMININE], 81);
  ([Some ADJECTIVE_FORM_FULL; Some GRADE_SUPERLATIVE; Some ANIMALITY_INANIMATE; Some NUMBER_SINGULAR; Some CASE_ACCUSATIVE; Some GENDER_MASCULINE], 82);
  ([Some ADJECTIVE_FORM_FULL; Some GRADE_SUPERLATIVE; Some ANIMALITY_INANIMATE; Some NUMBER_SINGULAR; Some CASE_ACCUSATIVE; Some GENDER_NEUTER], 83);
  ([Some ADJECTIVE_FORM_FULL; Some GRADE_SUPERLATIVE; Some ANIMALITY_INANIMATE; Some NUMBER_SINGULAR; Some CASE_ACCUSATIVE; Some GENDER_FEMININE], 84);
  ([Some ADJECTIVE_FORM_FULL; Some GRADE_SUPERLATIVE; Some ANIMALITY_INANIMATE; Some NUMBER_SINGULAR; Some CASE_INSTRUMENTAL; Some GENDER_MASCULINE], 85);
  ([Some ADJECTIVE_FORM_FULL; Some GRADE_SUPERLATIVE; Some ANIMALITY_INANIMATE; Some NUMBER_SINGULAR; Some CASE_INSTRUMENTAL; Some GENDER_NEUTER], 86);
  ([Some ADJECTIVE_FORM_FULL; Some GRADE_SUPERLATIVE; Some ANIMALITY_INANIMATE; Some NUMBER_SINGULAR; Some CASE_INSTRUMENTAL; Some GENDER_FEMININE], 87);
  ([Some ADJECTIVE_FORM_FULL; Some GRADE_SUPERLATIVE; Some ANIMALITY_INANIMATE; Some NUMBER_SINGULAR; Some CASE_PREPOSITIONAL; Some GENDER_MASCULINE], 88);
  ([Some ADJECTIVE_FORM_FULL; Some GRADE_SUPERLATIVE; Some ANIMALITY_INANIMATE; Some NUMBER_SINGULAR; Some CASE_PREPOSITIONAL; Some GENDER_NEUTER], 89);
  ([Some ADJECTIVE_FORM_FULL; Some GRADE_SUPERLATIVE; Some ANIMALITY_INANIMATE; Some NUMBER_SINGULAR; Some CASE_PREPOSITIONAL; Some GENDER_FEMININE], 90);
  ([Some ADJECTIVE_FORM_FULL; Some GRADE_SUPERLATIVE; Some ANIMALITY_INANIMATE; Some NUMBER_PLURAL; Some CASE_NOMINATIVE; None], 91);
  ([Some ADJECTIVE_FORM_FULL; Some GRADE_SUPERLATIVE; Some ANIMALITY_INANIMATE; Some NUMBER_PLURAL; Some CASE_GENITIVE; None], 92);
  ([Some ADJECTIVE_FORM_FULL; Some GRADE_SUPERLATIVE; Some ANIMALITY_INANIMATE; Some NUMBER_PLURAL; Some CASE_DATIVE; None], 93);
  ([Some ADJECTIVE_FORM_FULL; Some GRADE_SUPERLATIVE; Some ANIMALITY_INANIMATE; Some NUMBER_PLURAL; Some CASE_ACCUSATIVE; None], 94);
  ([Some ADJECTIVE_FORM_FULL; Some GRADE_SUPERLATIVE; Some ANIMALITY_INANIMATE; Some NUMBER_PLURAL; Some CASE_INSTRUMENTAL; None], 95);
  ([Some ADJECTIVE_FORM_FULL; Some GRADE_SUPERLATIVE; Some ANIMALITY_INANIMATE; Some NUMBER_PLURAL; Some CASE_PREPOSITIONAL; None], 96);
  ([Some ADJECTIVE_FORM_SHORT; None; None; Some NUMBER_SINGULAR; None; Some GENDER_MASCULINE], 97);
  ([Some ADJECTIVE_FORM_SHORT; None; None; Some NUMBER_SINGULAR; None; Some GENDER_NEUTER], 98);
  ([Some ADJECTIVE_FORM_SHORT; None; None; Some NUMBER_SINGULAR; None; Some GENDER_FEMININE], 99);
  ([Some ADJECTIVE_FORM_SHORT; None; None; Some NUMBER_PLURAL; None; None], 100)
].

(** utg/migrations/m_0009_pronoun_modernization.py:147-170 *)
Definition m9_OLD_CACHES_PRONOUN : dict key nat := dict_literal [
  ([None; Some NUMBER_SINGULAR; Some CASE_NOMINATIVE; Some GENDER_MASCULINE], 6);
  ([None; Some NUMBER_SINGULAR; Some CASE_NOMINATIVE; Some GENDER_NEUTER], 7);
  ([None; Some NUMBER_SINGULAR; Some CASE_NOMINATIVE; Some GENDER_FEMININE], 8);
  ([None; Some NUMBER_SINGULAR; Some CASE_GENITIVE; Some GENDER_MASCULINE], 15);
  ([None; Some NUMBER_SINGULAR; Some CASE_GENITIVE; Some GENDER_NEUTER], 16);
  ([None; Some NUMBER_SINGULAR; Some CASE_GENITIVE; Some GENDER_FEMININE], 17);
  ([None; Some NUMBER_SINGULAR; Some CASE_DATIVE; Some GENDER_MASCULINE], 24);
  ([None; Some NUMBER_SINGULAR; Some CASE_DATIVE; Some GENDER_NEUTER], 25);
  ([None; Some NUMBER_SINGULAR; Some CASE_DATIVE; Some GENDER_FEMININE], 26);
  ([None; Some NUMBER_SINGULAR; Some CASE_ACCUSATIVE; Some GENDER_MASCULINE], 33);
  ([None; Some NUMBER_SINGULAR; Some CASE_ACCUSATIVE; Some GENDER_NEUTER], 34);
  ([None; Some NUMBER_SINGULAR; Some CASE_ACCUSATIVE; Some GENDER_FEMININE], 35);
  ([None; Some NUMBER_SINGULAR; Some CASE_INSTRUMENTAL; Some GENDER_MASCULINE], 42);
  ([None; Some NUMBER_SINGULAR; Some CASE_INSTRUMENTAL; Some GENDER_NEUTER], 43);
  ([None; Some NUMBER_SINGULAR; Some CASE_INSTRUMENTAL; Some GENDER_FEMININE], 44);
  ([None; Some NUMBER_SINGULAR; Some CASE_PREPOSITIONAL; Some GENDER_MASCULINE], 51);
  ([None; Some NUMBER_SINGULAR; Some CASE_PREPOSITIONAL; Some GENDER_NEUTER], 52);
  ([None; Some NUMBER_SINGULAR; Some CASE_PREPOSITIONAL; Some GENDER_FEMININE], 53);
  ([None; Some NUMBER_PLURAL; Some CASE_NOMINATIVE; None], 56);
  ([None; Some NUMBER_PLURAL; Some CASE_GENITIVE; None], 59);
  ([None; Some NUMBER_PLURAL; Some CASE_DATIVE; None], 62);
  ([None; Some NUMBER_PLURAL; Some CASE_ACCUSATIVE; None], 65);
  ([None; Some NUMBER_PLURAL; Some CASE_INSTRUMENTAL; None], 68);
  ([None; Some NUMBER_PLURAL; Some CASE_PREPOSITIONAL; None], 71)
].

(** utg/migrations/m_0009_pronoun_modernization.py:171-190 *)
Definition m9_OLD_CACHES_VERB : dict key nat := dict_literal [
  ([Some VERB_FORM_INFINITIVE; None; None; None; None], 0);
  ([Some VERB_FORM_INDICATIVE; Some TIME_PAST; Some NUMBER_SINGULAR; None; Some GENDER_MASCULINE], 1);
  ([Some VERB_FORM_INDICATIVE; Some TIME_PAST; Some NUMBER_SINGULAR; None; Some GENDER_NEUTER], 2);
  ([Some VERB_FORM_INDICATIVE; Some TIME_PAST; Some NUMBER_SINGULAR; None; Some GENDER_FEMININE], 3);
  ([Some VERB_FORM_INDICATIVE; Some TIME_PAST; Some NUMBER_PLURAL; None; None], 4);
  ([Some VERB_FORM_INDICATIVE; Some TIME_PRESENT; Some NUMBER_SINGULAR; Some PERSON_FIRST; None], 5);
  ([Some VERB_FORM_INDICATIVE; Some TIME_PRESENT; Some NUMBER_SINGULAR; Some PERSON_SECOND; None], 6);
  ([Some VERB_FORM_INDICATIVE; Some TIME_PRESENT; Some NUMBER_SINGULAR; Some PERSON_THIRD; None], 7);
  ([Some VERB_FORM_INDICATIVE; Some TIME_PRESENT; Some NUMBER_PLURAL; Some PERSON_FIRST; None], 8);
  ([Some VERB_FORM_INDICATIVE; Some TIME_PRESENT; Some NUMBER_PLURAL; Some PERSON_SECOND; None], 9);
  ([Some VERB_FORM_INDICATIVE; Some TIME_PRESENT; Some NUMBER_PLURAL; Some PERSON_THIRD; None], 10);
  ([Some VERB_FORM_INDICATIVE; Some TIME_FUTURE; Some NUMBER_SINGULAR; Some PERSON_FIRST; None], 11);
  ([Some VERB_FORM_INDICATIVE; Some TIME_FUTURE; Some NUMBER_SINGULAR; Some PERSON_SECOND; None], 12);
  ([Some VERB_FORM_INDICATIVE; Some TIME_FUTURE; Some NUMBER_SINGULAR; Some PERSON_THIRD; None], 13);
  ([Some VERB_FORM_INDICATIVE; Some TIME_FUTURE; Some NUMBER_PLURAL; Some PERSON_FIRST; None], 14);
  ([Some VERB_FORM_INDICATIVE; Some TIME_FUTURE; Some NUMBER_PLURAL; Some PERSON_SECOND; None], 15);
  ([Some VERB_FORM_INDICATIVE; Some TIME_FUTURE; Some NUMBER_PLURAL; Some PERSON_THIRD; None], 16);
  ([Some VERB_FORM_IMPERATIVE; None; Some NUMBER_SINGULAR; Some PERSON_SECOND; None], 17);
  ([Some VERB_FORM_IMPERATIVE; None; Some NUMBER_PLURAL; Some PERSON_FIRST; None], 18);
  ([Some VERB_FORM_IMPERATIVE; None; Some NUMBER_PLURAL; Some PERSON_SECOND; None], 19)
].

(** utg/migrations/m_0009_pronoun_modernization.py:191-338 *)
Definition m9_OLD_CACHES_PARTICIPLE : dict key nat := dict_literal [
  ([Some PARTICIPLE_FORM_FULL; Some TIME_PAST; Some ANIMALITY_ANIMATE; Some NUMBER_SINGULAR; Some CASE_NOMINATIVE; Some GENDER_MASCULINE], 0);
  ([Some PARTICIPLE_FORM_FULL; Some TIME_PAST; Some ANIMALITY_ANIMATE; Some NUMBER_SINGULAR; Some CASE_NOMINATIVE; Some GENDER_NEUTER], 1);
  ([Some PARTICIPLE_FORM_FULL; Some TIME_PAST; Some ANIMALITY_ANIMATE; Some NUMBER_SINGULAR; Some CASE_NOMINATIVE; Some GENDER_FEMININE], 2);
  ([Some PARTICIPLE_FORM_FULL; Some TIME_PAST; Some ANIMALITY_ANIMATE; Some NUMBER_SINGULAR; Some CASE_GENITIVE; Some GENDER_MASCULINE], 3);
  ([Some PARTICIPLE_FORM_FULL; Some TIME_PAST; Some ANIMALITY_ANIMATE; Some NUMBER_SINGULAR; Some CASE_GENITIVE; Some GENDER_NEUTER], 4);
  ([Some PARTICIPLE_FORM_FULL; Some TIME_PAST; Some ANIMALITY_ANIMATE; Some NUMBER_SINGULAR; Some CASE_GENITIVE; Some GENDER_FEMININE], 5);
  ([Some PARTICIPLE_FORM_FULL; Some TIME_PAST; Some ANIMALITY_ANIMATE; Some NUMBER_SINGULAR; Some CASE_DATIVE; Some GENDER_MASCULINE], 6);
  ([Some PARTICIPLE_FORM_FULL; Some TIME_PAST; Some ANIMALITY_ANIMATE; Some NUMBER_SINGULAR; Some CASE_DATIVE; Some GENDER_NEUTER], 7);
  ([Some PARTICIPLE_FORM_FULL; Some TIME_PAST; Some ANIMALITY_ANIMATE; Some NUMBER_SINGULAR; Some CASE_DATIVE; Some GENDER_FEMININE], 8);
  ([Some PARTICIPLE_FORM_FULL; Some TIME_PAST; Some ANIMALITY_ANIMATE; Some NUMBER_SINGULAR; Some CASE_ACCUSATIVE; Some GENDER_MASCULINE], 9);
  ([Some PARTICIPLE_FORM_FULL; Some TIME_PAST; Some ANIMALITY_ANIMATE; Some NUMBER_SINGULAR; Some CASE_ACCUSATIVE; Some GENDER_NEUTER], 10);
  ([Some PARTICIPLE_FORM_FULL; Some TIME_PAST; Some ANIMALITY_ANIMATE; Some NUMBER_SINGULAR; Some CASE_ACCUSATIVE; Some GENDER_FEMININE], 11);
  ([Some PARTICIPLE_FORM_FULL; Some TIME_PAST; Some ANIMALITY_ANIMATE; Some NUMBER_SINGULAR; Some CASE_INSTRUMENTAL; Some GENDER_MASCULINE], 12);
  ([Some PARTICIPLE_FORM_FULL; Some TIME_PAST; Some ANIMALITY_ANIMATE; Some NUMBER_SINGULAR; Some CASE_INSTRUMENTAL; Some GENDER_NEUTER], 13);
  ([Some PARTICIPLE_FORM_FULL; Some TIME_PAST; Some ANIMALITY_ANIMATE; Some NUMBER_SINGULAR; Some CASE_INSTRUMENTAL; Some GENDER_FEMININE], 14);
  ([Some PARTICIPLE_FORM_FULL; Some TIME_PAST; Some ANIMALITY_ANIMATE; Some NUMBER_SINGULAR; Some CASE_PREPOSITIONAL; Some GENDER_MASCULINE], 15);
  ([Some PARTICIPLE_FORM_FULL; Some TIME_PAST; Some ANIMALITY_ANIMATE; Some NUMBER_SINGULAR; Some CASE_PREPOSITIONAL; Some GENDER_NEUTER], 16);
  ([Some PARTICIPLE_FORM_FULL; Some TIME_PAST; Some ANIMALITY_ANIMATE; Some NUMBER_SINGULAR; Some CASE_PREPOSITIONAL; Some GENDER_FEMININE], 17);
  ([Some PARTICIPLE_FORM_FULL; Some TIME_PAST; Some ANIMALITY_ANIMATE; Some NUMBER_PLURAL; Some CASE_NOMINATIVE; None], 18);
  ([Some PARTICIPLE_FORM_FULL; Some TIME_PAST; Some ANIMALITY_ANIMATE; Some NUMBER_PLURAL; Some CASE_GENITIVE; None], 19);
  ([Some PARTICIPLE_FORM_FULL; Some TIME_PAST; Some ANIMALITY_ANIMATE; Some NUMBER_PLURAL; Some CASE_DATIVE; None], 20);
  ([Some PARTICIPLE_FORM_FULL; Some TIME_PAST; Some ANIMALITY_ANIMATE; Some NUMBER_PLURAL; Some CASE_ACCUSATIVE; None], 21);
  ([Some PARTICIPLE_FORM_FULL; Some TIME_PAST; Some ANIMALITY_ANIMATE; Some NUMBER_PLURAL; Some CASE_INSTRUMENTAL; None], 22);
  ([Some PARTICIPLE_FORM_FULL; Some TIME_PAST; Some ANIMALITY_ANIMATE; Some NUMBER_PLURAL; Some CASE_PREPOSITIONAL; None], 23);
  ([Some PARTICIPLE_FORM_FULL; Some TIME_PAST; Some ANIMALITY_INANIMATE; Some NUMBER_SINGULAR; Some CASE_NOMINATIVE; Some GENDER_MASCULINE], 24);
  ([Some PARTICIPLE_FORM_FULL; Some TIME_PAST; Some ANIMALITY_INANIMATE; Some NUMBER_SINGULAR; Some CASE_NOMINATIVE; Some GENDER_NEUTER], 25);
  ([Some PARTICIPLE_FORM_FULL; Some TIME_PAST; Some ANIMALITY_INANIMATE; Some NUMBER_SINGULAR; Some CASE_NOMINATIVE; Some GENDER_FEMININE], 26);
  ([Some PARTICIPLE_FORM_FULL; Some TIME_PAST; Some ANIMALITY_INANIMATE; Some NUMBER_SINGULAR; Some CASE_GENITIVE; Some GENDER_MASCULINE], 27);
  ([Some PARTICIPLE_FORM_FULL; Some TIME_PAST; Some ANIMALITY_INANIMATE; Some NUMBER_SINGULAR; Some CASE_GENITIVE; Some GENDER_NEUTER], 28);
  ([Some PARTICIPLE_FORM_FULL; Some TIME_PAST; Some ANIMALITY_INANIMATE; Some NUMBER_SINGULAR; Some CASE_GENITIVE; Some GENDER_FEMININE], 29);
  ([Some PARTICIPLE_FORM_FULL; Some TIME_PAST; Some ANIMALITY_INANIMATE; Some NUMBER_SINGULAR; Some CASE_DATIVE; Some GENDER_MASCULINE], 30);
  ([Some PARTICIPLE_FORM_FULL; Some TIME_PAST; Some ANIMALITY_INANIMATE; Some NUMBER_SINGULAR; Some CASE_DATIVE; Some GENDER_NEUTER], 31);
  ([Some PARTICIPLE_FORM_FULL; Some TIME_PAST; Some ANIMALITY_INANIMATE; Some NUMBER_SINGULAR; Some CASE_DATIVE; Some GENDER_FEMININE], 32);
  ([Some PARTICIPLE_FORM_FULL; Some TIME_PAST; Some ANIMALITY_INANIMATE; Some NUMBER_SINGULAR; Some CASE_ACCUSATIVE; Some GENDER_MASCULINE], 33);
  ([Some PARTICIPLE_FORM_FULL; Some TIME_PAST; Some ANIMALITY_INANIMATE; Some NUMBER_SINGULAR; Some CASE_ACCUSATIVE; Some GENDER_NEUTER], 34);
  ([Some PARTICIPLE_FORM_FULL; Some TIME_PAST; Some ANIMALITY_INANIMATE; Some NUMBER_SINGULAR; Some CASE_ACCUSATIVE; Some GENDER_FEMININE], 35);
  ([Some PARTICIPLE_FORM_FULL; Some TIME_PAST; Some ANIMALITY_INANIMATE; Some NUMBER_SINGULAR; Some CASE_INSTRUMENTAL; Some GENDER_MASCULINE], 36);
  ([Some PARTICIPLE_FORM_FULL; Some TIME_PAST; Some ANIMALITY_INANIMATE; Some NUMBER_SINGULAR; Some CASE_INSTRUMENTAL; Some GENDER_NEUTER], 37);
  ([Some PARTICIPLE_FORM_FULL; Some TIME_PAST; Some ANIMALITY_INANIMATE; Some NUMBER_SINGULAR; Some CASE_INSTRUMENTAL; Some GENDER_FEMININE], 38);
  ([Some PARTICIPLE_FORM_FULL; Some TIME_PAST; Some ANIMALITY_INANIMATE; Some NUMBER_SINGULAR; Some CASE_PREPOSITIONAL; Some GENDER_MASCULINE], 39);
  ([Some PARTICIPLE_FORM_FULL; Some TIME_PAST; Some ANIMALITY_INANIMATE; Some NUMBER_SINGULAR; Some CASE_PREPOSITIONAL; Some GENDER_NEUTER], 40);
  ([Some PARTICIPLE_FORM_FULL; Some TIME_PAST; Some ANIMALITY_INANIMATE; Some NUMBER_SINGULAR; Some CASE_PREPOSITIONAL; Some GENDER_FEMININE], 41);
  ([Some PARTICIPLE_FORM_FULL; Some TIME_PAST; Some ANIMALITY_INANIMATE; Some NUMBER_PLURAL; Some CASE_NOMINATIVE; None], 42);
  ([Some PARTICIPLE_FORM_FULL; Some TIME_PAST; Some ANIMALITY_INANIMATE; Some NUMBER_PLURAL; Some CASE_GENITIVE; None], 43);
  ([Some PARTICIPLE_FORM_FULL; Some TIME_PAST; Some ANIMALITY_INANIMATE; Some NUMBER_PLURAL; Some CASE_DATIVE; None], 44);
  ([Some PARTICIPLE_FORM_FULL; Some TIME_PAST; Some ANIMALITY_INANIMATE; Some NUMBER_PLURAL; Some CASE_ACCUSATIVE; None], 45);
  ([Some PARTICIPLE_FORM_FULL; Some TIME_PAST; Some ANIMALITY_INANIMATE; Some NUMBER_PLURAL; Some CASE_INSTRUMENTAL; None], 46);
  ([Some PARTICIPLE_FORM_FULL; Some TIME_PAST; Some ANIMALITY_INANIMATE; Some NUMBER_PLURAL; Some CASE_PREPOSITIONAL; None], 47);
  ([Some PARTICIPLE_FORM_FULL; Some TIME_PRESENT; Some ANIMALITY_ANIMATE; Some NUMBER_SINGULAR; Some CASE_NOMINATIVE; Some GENDER_MASCULINE], 48);
  ([Some PARTICIPLE_FORM_FULL; Some TIME_PRESENT; Some ANIMALITY_ANIMATE; Some NUMBER_SINGULAR; Some CASE_NOMINATIVE; Some GENDER_NEUTER], 49);
  ([Some PARTICIPLE_FORM_FULL; Some TIME_PRESENT; Some ANIMALITY_ANIMATE; Some NUMBER_SINGULAR; Some CASE_NOMINATIVE; Some GENDER_FEMININE], 50);
  ([Some PARTICIPLE_FORM_FULL; Some TIME_PRESENT; Some ANIMALITY_ANIMATE; Some NUMBER_SINGULAR; Some CASE_GENITIVE; Some GENDER_MASCULINE], 51);
  ([Some PARTICIPLE_FORM_FULL; Some TIME_PRESENT; Some ANIMALITY_ANIMATE; Some NUMBER_SINGULAR; Some CASE_GENITIVE; Some GENDER_NEUTER], 52);
  ([Some PARTICIPLE_FORM_FULL; Some TIME_PRESENT; Some ANIMALITY_ANIMATE; Some NUMBER_SINGULAR; Some CASE_GENITIVE; Some GENDER_FEMININE], 53);
  ([Some PARTICIPLE_FORM_FULL; Some TIME_PRESENT; Some ANIMALITY_ANIMATE; Some NUMBER_SINGULAR; Some CASE_DATIVE; Some GENDER_MASCULINE], 54);
  ([Some PARTICIPLE_FORM_FULL; Some TIME_PRESENT; Some ANIMALITY_ANIMATE; Some NUMBER_SINGULAR; Some CASE_DATIVE; Some GENDER_NEUTER], 55);
  ([Some PARTICIPLE_FORM_FULL; Some TIME_PRESENT; Some ANIMALITY_ANIMATE; Some NUMBER_SINGULAR; Some CASE_DATIVE; Some GENDER_FEMININE], 56);
  ([Some PARTICIPLE_FORM_FULL; Some TIME_PRESENT; Some ANIMALITY_ANIMATE; Some NUMBER_SINGULAR; Some CASE_ACCUSATIVE; Some GENDER_MASCULINE], 57);
  ([Some PARTICIPLE_FORM_FULL; Some TIME_PRESENT; Some ANIMALITY_ANIMATE; Some NUMBER_SINGULAR; Some CASE_ACCUSATIVE; Some GENDER_NEUTER], 58);
  ([Some PARTICIPLE_FORM_FULL; Some TIME_PRESENT; Some ANIMALITY_ANIMATE; Some NUMBER_SINGULAR; Some CASE_ACCUSATIVE; Some GENDER_FEMININE], 59);
  ([Some PARTICIPLE_FORM_FULL; Some TIME_PRESENT; Some ANIMALITY_ANIMATE; Some NUMBER_SINGULAR; Some CASE_INSTRUMENTAL; Some GENDER_MASCULINE], 60);
  ([Some PARTICIPLE_FORM_FULL; Some TIME_PRESENT; Some ANIMALITY_ANIMATE; Some NUMBER_SINGULAR; Some CASE_INSTRUMENTAL; Some GENDER_NEUTER], 61);
  ([Some PARTICIPLE_FORM_FULL; Some TIME_PRESENT; Some ANIMALITY_ANIMATE; Some NUMBER_SINGULAR; Some CASE_INSTRUMENTAL; Some GENDER_FEMININE], 62);
  ([Some PARTICIPLE_FORM_FULL; Some TIME_PRESENT; Some ANIMALITY_ANIMATE; Some NUMBER_SINGULAR; Some CASE_PREPOSITIONAL; Some GENDER_MASCULINE], 63);
  ([Some PARTICIPLE_FORM_FULL; Some TIME_PRESENT; Some ANIMALITY_ANIMATE; Some NUMBER_SINGULAR; Some CASE_PREPOSITIONAL; Some GENDER_NEUTER], 64);
  ([Some PARTICIPLE_FORM_FULL; Some TIME_PRESENT; Some ANIMALITY_ANIMATE; Some NUMBER_SINGULAR; Some CASE_PREPOSITIONAL; Some GENDER_FEMININE], 65);
  ([Some PARTICIPLE_FORM_FULL; Some TIME_PRESENT; Some ANIMALITY_ANIMATE; Some NUMBER_PLURAL; Some CASE_NOMINATIVE; None], 66);
  ([Some PARTICIPLE_FORM_FULL; Some TIME_PRESENT; Some ANIMALITY_ANIMATE; Some NUMBER_PLURAL; Some CASE_GENITIVE; None], 67);
  ([Some PARTICIPLE_FORM_FULL; Some TIME_PRESENT; Some ANIMALITY_ANIMATE; Some NUMBER_PLURAL; Some CASE_DATIVE; None], 68);
  ([Some PARTICIPLE_FORM_FULL; Some TIME_PRESENT; Some ANIMALITY_ANIMATE; Some NUMBER_PLURAL; Some CASE_ACCUSATIVE; None], 69);
  ([Some PARTICIPLE_FORM_FULL; Some TIME_PRESENT; Some ANIMALITY_ANIMATE; Some NUMBER_PLURAL; Some CASE_INSTRUMENTAL; None], 70);
  ([Some PARTICIPLE_FORM_FULL; Some TIME_PRESENT; Some ANIMALITY_ANIMATE; Some NUMBER_PLURAL; Some CASE_PREPOSITIONAL; None], 71);
  ([Some PARTICIPLE_FORM_FULL; Some TIME_PRESENT; Some ANIMALITY_INANIMATE; Some NUMBER_SINGULAR; Some CASE_NOMINATIVE; Some GENDER_MASCULINE], 72);
  ([Some PARTICIPLE_FORM_FULL; Some TIME_PRESENT; Some ANIMALITY_INANIMATE; Some NUMBER_SINGULAR; Some CASE_NOMINATIVE; Some GENDER_NEUTER], 73);
  ([Some PARTICIPLE_FORM_FULL; Some TIME_PRESENT; Some ANIMALITY_INANIMATE; Some NUMBER_SINGULAR; Some CASE_NOMINATIVE; Some GENDER_FEMININE], 74);
  ([Some PARTICIPLE_FORM_FULL; Some TIME_PRESENT; Some ANIMALITY_INANIMATE; Some NUMBER_SINGULAR; Some CASE_GENITIVE; Some GENDER_MASCULINE], 75);
  ([Some PARTICIPLE_FORM_FULL; Some TIME_PRESENT; Some ANIMALITY_INANIMATE; Some NUMBER_SINGULAR; Some CASE_GENITIVE; Some GENDER_NEUTER], 76);
  ([Some PARTICIPLE_FORM_FULL; Some TIME_PRESENT; Some ANIMALITY_INANIMATE; Some NUMBER_SINGULAR; Some CASE_GENITIVE; Some GENDER_FEMININE], 77);
  ([Some PARTICIPLE_FORM_FULL; Some TIME_PRESENT; Some ANIMALITY_INANIMATE; Some NUMBER_SINGULAR; Some CASE_DATIVE; Some GENDER_MASCULINE], 78);
  ([Some PARTICIPLE_FORM_FULL; Some TIME_PRESENT; Some ANIMALITY_INANIMATE; Some NUMBER_SINGULAR; Some CASE_DATIVE; Some GENDER_NEUTER], 79);
  ([Some PARTICIPLE_FORM_FULL; Some TIME_PRESENT; Some ANIMALITY_INANIMATE; Some NUMBER_SINGULAR; Some CASE_DATIVE; Some GENDER_FEMININE], 80);
  ([Some PARTICIPLE_FORM_FULL; Some TIME_PRESENT; Some ANIMALITY_INANIMATE; Some NUMBER_SINGULAR; Some CASE_ACCUSATIVE; Some GENDER_MASCULINE], 81);
  ([Some PARTICIPLE_FORM_FULL; Some TIME_PRESENT; Some ANIMALITY_INANIMATE; Some NUMBER_SINGULAR; Some CASE_ACCUSATIVE; Some GENDER_NEUTER], 82);
  ([Some PARTICIPLE_FORM_FULL; Some TIME_PRESENT; Some ANIMALITY_INANIMATE; Some NUMBER_SINGULAR; Some CASE_ACCUSATIVE; Some GENDER_FEMININE], 83);
  ([Some PARTICIPLE_FORM_FULL; Some TIME_PRESENT; Some ANIMALITY_INANIMATE; Some NUMBER_SINGULAR; Some CASE_INSTRUMENTAL; Some GENDER_MASCULINE], 84);
  ([Some PARTICIPLE_FORM_FULL; Some TIME_PRESENT; Some ANIMALITY_INANIMATE; Some NUMBER_SINGULAR; Some CASE_INSTRUMENTAL; Some GENDER_NEUTER], 85);
  ([Some PARTICIPLE_FORM_FULL; Some TIME_PRESENT; Some ANIMALITY_INANIMATE; Some NUMBER_SINGULAR; Some CASE_INSTRUMENTAL; Some GENDER_FEMININE], 86);
  ([Some PARTICIPLE_FORM_FULL; Some TIME_PRESENT; Some ANIMALITY_INANIMATE; Some NUMBER_SINGULAR; Some CASE_PREPOSITIONAL; Some GENDER_MASCULINE], 87);
  ([Some PARTICIPLE_FORM_FULL; Some TIME_PRESENT; Some ANIMALITY_INANIMATE; Some NUMBER_SINGULAR; Some CASE_PREPOSITIONAL; Some GENDER_NEUTER], 88);
  ([Some PARTICIPLE_FORM_FULL; Some TIME_PRESENT; Some ANIMALITY_INANIMATE; Some NUMBER_SINGULAR; Some CASE_PREPOSITIONAL; Some GENDER_FEMININE], 89);
  ([Some PARTICIPLE_FORM_FULL; Some TIME_PRESENT; Some ANIMALITY_INANIMATE; Some NUMBER_PLURAL; Some CASE_NOMINATIVE; None], 90);
  ([Some PARTICIPLE_FORM_FULL; Some TIME_PRESENT; Some ANIMALITY_INANIMATE; Some NUMBER_PLURAL; Some CASE_GENITIVE; None], 91);
  ([Some PARTICIPLE_FORM_FULL; Some TIME_PRESENT; Some ANIMALITY_INANIMATE; Some NUMBER_PLURAL; Some CASE_DATIVE; None], 92);
  ([Some PARTICIPLE_FORM_FULL; Some TIME_PRESENT; Some ANIMALITY_INANIMATE; Some NUMBER_PLURAL; Some CASE_ACCUSATIVE; None], 93);
  ([Some PARTICIPLE_FORM_FULL; Some TIME_PRESENT; Some ANIMALITY_INANIMATE; Some NUMBER_PLURAL; Some CASE_INSTRUMENTAL; None], 94);
  ([Some PARTICIPLE_FORM_FULL; Some TIME_PRESENT; Some ANIMALITY_INANIMATE; Some NUMBER_PLURAL; Some CASE_PREPOSITIONAL; None], 95);
  ([Some PARTICIPLE_FORM_FULL; Some TIME_FUTURE; Some ANIMALITY_ANIMATE; Some NUMBER_SINGULAR; Some CASE_NOMINATIVE; Some GENDER_MASCULINE], 96);
  ([Some PARTICIPLE_FORM_FULL; Some TIME_FUTURE; Some ANIMALITY_ANIMATE; Some NUMBER_SINGULAR; Some CASE_NOMINATIVE; Some GENDER_NEUTER], 97);
  ([Some PARTICIPLE_FORM_FULL; Some TIME_FUTURE; Some ANIMALITY_ANIMATE; Some NUMBER_SINGULAR; Some CASE_NOMINATIVE; Some GENDER_FEMININE], 98);
  ([Some PARTICIPLE_FORM_FULL; Some TIME_FUTURE; Some ANIMALITY_ANIMATE; Some NUMBER_SINGULAR; Some CASE_GENITIVE; Some GENDER_MASCULINE], 99);
  ([Some PARTICIPLE_FORM_FULL; Some TIME_FUTURE; Some ANIMALITY_ANIMATE; Some NUMBER_SINGULAR; Some CASE_GENITIVE; Some GENDER_NEUTER], 100);
  ([Some PARTICIPLE_FORM_FULL; Some TIME_FUTURE; Some ANIMALITY_ANIMATE; Some NUMBER_SINGULAR; Some CASE_GENITIVE; Some GENDER_FEMININE], 101);
  ([Some PARTICIPLE_FORM_FULL; Some TIME_FUTURE; Some ANIMALITY_ANIMATE; Some NUMBER_SINGULAR; Some CASE_DATIVE; Some GENDER_MASCULINE], 102);
  ([Some PARTICIPLE_FORM_FULL; Some TIME_FUTURE; Some ANIMALITY_ANIMATE; Some NUMBER_SINGULAR; Some CASE_DATIVE; Some GENDER_NEUTER], 103);
  ([Some PARTICIPLE_FORM_FULL; Some TIME_FUTURE; Some ANIMALITY_ANIMATE; Some NUMBER_SINGULAR; Some CASE_DATIVE; Some GENDER_FEMININE], 104);
  ([Some PARTICIPLE_FORM_FULL; Some TIME_FUTURE; Some ANIMALITY_ANIMATE; Some NUMBER_SINGULAR; Some CASE_ACCUSATIVE; Some GENDER_MASCULINE], 105);
  ([Some PARTICIPLE_FORM_FULL; Some TIME_FUTURE; Some ANIMALITY_ANIMATE; Some NUMBER_SINGULAR; Some CASE_ACCUSATIVE; Some GENDER_NEUTER], 106);
  ([Some PARTICIPLE_FORM_FULL; Some TIME_FUTURE; Some ANIMALITY_ANIMATE; Some NUMBER_SINGULAR; Some CASE_ACCUSATIVE; Some GENDER_FEMININE], 107);
  ([Some PARTICIPLE_FORM_FULL; Some TIME_FUTURE; Some ANIMALITY_ANIMATE; Some NUMBER_SINGULAR; Some CASE_INSTRUMENTAL; Some GENDER_MASCULINE], 108);
  ([Some PARTICIPLE_FORM_FULL; Some TIME_FUTURE; Some ANIMALITY_ANIMATE; Some NUMBER_SINGULAR; Some CASE_INSTRUMENTAL; Some GENDER_NEUTER], 109);
  ([Some PARTICIPLE_FORM_FULL; Some TIME_FUTURE; Some ANIMALITY_ANIMATE; Some NUMBER_SINGULAR; Some CASE_INSTRUMENTAL; Some GENDER_FEMININE], 110);
  ([Some PARTICIPLE_FORM_FULL; Some TIME_FUTURE; Some ANIMALITY_ANIMATE; Some NUMBER_SINGULAR; Some CASE_PREPOSITIONAL; Some GENDER_MASCULINE], 111);
  ([Some PARTICIPLE_FORM_FULL; Some TIME_FUTURE; Some ANIMALITY_ANIMATE; Some NUMBER_SINGULAR; Some CASE_PREPOSITIONAL; Some GENDER_NEUTER], 112);
  ([Some PARTICIPLE_FORM_FULL; Some TIME_FUTURE; Some ANIMALITY_ANIMATE; Some NUMBER_SINGULAR; Some CASE_PREPOSITIONAL; Some GENDER_FEMININE], 113);
  ([Some PARTICIPLE_FORM_FULL; Some TIME_FUTURE; Some ANIMALITY_ANIMATE; Some NUMBER_PLURAL; Some CASE_NOMINATIVE; None], 114);
  ([Some PARTICIPLE_FORM_FULL; Some TIME_FUTURE; Some ANIMALITY_ANIMATE; Some NUMBER_PLURAL; Some CASE_GENITIVE; None], 115);
  ([Some PARTICIPLE_FORM_FULL; Some TIME_FUTURE; Some ANIMALITY_ANIMATE; Some NUMBER_PLURAL; Some CASE_DATIVE; None], 116);
  ([Some PARTICIPLE_FORM_FULL; Some TIME_FUTURE; Some ANIMALITY_ANIMATE; Some NUMBER_PLURAL; Some CASE_ACCUSATIVE; None], 117);
  ([Some PARTICIPLE_FORM_FULL; Some TIME_FUTURE; Some ANIMALITY_ANIMATE; Some NUMBER_PLURAL; Some CASE_INSTRUMENTAL; None], 118);
  ([Some PARTICIPLE_FORM_FULL; Some TIME_FUTURE; Some ANIMALITY_ANIMATE; Some NUMBER_PLURAL; Some CASE_PREPOSITIONAL; None], 119);
  ([Some PARTICIPLE_FORM_FULL; Some TIME_FUTURE; Some ANIMALITY_INANIMATE; Some NUMBER_SINGULAR; Some CASE_NOMINATIVE; Some GENDER_MASCULINE], 120);
  ([Some PARTICIPLE_FORM_FULL; Some TIME_FUTURE; Some ANIMALITY_INANIMATE; Some NUMBER_SINGULAR; Some CASE_NOMINATIVE; Some GENDER_NEUTER], 121);
  ([Some PARTICIPLE_FORM_FULL; Some TIME_FUTURE; Some ANIMALITY_INANIMATE; Some NUMBER_SINGULAR; Some CASE_NOMINATIVE; Some GENDER_FEMININE], 122);
  ([Some PARTICIPLE_FORM_FULL; Some TIME_FUTURE; Some ANIMALITY_INANIMATE; Some NUMBER_SINGULAR; Some CASE_GENITIVE; Some GENDER_MASCULINE], 123);
  ([Some PARTICIPLE_FORM_FULL; Some TIME_FUTURE; Some ANIMALITY_INANIMATE; Some NUMBER_SINGULAR; Some CASE_GENITIVE; Some GENDER_NEUTER], 124);
  ([Some PARTICIPLE_FORM_FULL; Some TIME_FUTURE; Some ANIMALITY_INANIMATE; Some NUMBER_SINGULAR; Some CASE_GENITIVE; Some GENDER_FEMININE], 125);
  ([Some PARTICIPLE_FORM_FULL; Some TIME_FUTURE; Some ANIMALITY_INANIMATE; Some NUMBER_SINGULAR; Some CASE_DATIVE; Some GENDER_MASCULINE], 126);
  ([Some PARTICIPLE_FORM_FULL; Some TIME_FUTURE; Some ANIMALITY_INANIMATE; Some NUMBER_SINGULAR; Some CASE_DATIVE; Some GENDER_NEUTER], 127);
  ([Some PARTICIPLE_FORM_FULL; Some TIME_FUTURE; Some ANIMALITY_INANIMATE; Some NUMBER_SINGULAR; Some CASE_DATIVE; Some GENDER_FEMININE], 128);
  ([Some PARTICIPLE_FORM_FULL; Some TIME_FUTURE; Some ANIMALITY_INANIMATE; Some NUMBER_SINGULAR; Some CASE_ACCUSATIVE; Some GENDER_MASCULINE], 129);
  ([Some PARTICIPLE_FORM_FULL; Some TIME_FUTURE; Some ANIMALITY_INANIMATE; Some NUMBER_SINGULAR; Some CASE_ACCUSATIVE; Some GENDER_NEUTER], 130);
  ([Some PARTICIPLE_FORM_FULL; Some TIME_FUTURE; Some ANIMALITY_INANIMATE; Some NUMBER_SINGULAR; Some CASE_ACCUSATIVE; Some GENDER_FEMININE], 131);
  ([Some PARTICIPLE_FORM_FULL; Some TIME_FUTURE; Some ANIMALITY_INANIMATE; Some NUMBER_SINGULAR; Some CASE_INSTRUMENTAL; Some GENDER_MASCULINE], 132);
  ([Some PARTICIPLE_FORM_FULL; Some TIME_FUTURE; Some ANIMALITY_INANIMATE; Some NUMBER_SINGULAR; Some CASE_INSTRUMENTAL; Some GENDER_NEUTER], 133);
  ([Some PARTICIPLE_FORM_FULL; Some TIME_FUTURE; Some ANIMALITY_INANIMATE; Some NUMBER_SINGULAR; Some CASE_INSTRUMENTAL; Some GENDER_FEMININE], 134);
  ([Some PARTICIPLE_FORM_FULL; Some TIME_FUTURE; Some ANIMALITY_INANIMATE; Some NUMBER_SINGULAR; Some CASE_PREPOSITIONAL; Some GENDER_MASCULINE], 135);
  ([Some PARTICIPLE_FORM_FULL; Some TIME_FUTURE; Some ANIMALITY_INANIMATE; Some NUMBER_SINGULAR; Some CASE_PREPOSITIONAL; Some GENDER_NEUTER], 136);
  ([Some PARTICIPLE_FORM_FULL; Some TIME_FUTURE; Some ANIMALITY_INANIMATE; Some NUMBER_SINGULAR; Some CASE_PREPOSITIONAL; Some GENDER_FEMININE], 137);
  ([Some PARTICIPLE_FORM_FULL; Some TIME_FUTURE; Some ANIMALITY_INANIMATE; Some NUMBER_PLURAL; Some CASE_NOMINATIVE; None], 138);
  ([Some PARTICIPLE_FORM_FULL; Some TIME_FUTURE; Some ANIMALITY_INANIMATE; Some NUMBER_PLURAL; Some CASE_GENITIVE; None], 139);
  ([Some PARTICIPLE_FORM_FULL; Some TIME_FUTURE; Some ANIMALITY_INANIMATE; Some NUMBER_PLURAL; Some CASE_DATIVE; None], 140);
  ([Some PARTICIPLE_FORM_FULL; Some TIME_FUTURE; Some ANIMALITY_INANIMATE; Some NUMBER_PLURAL; Some CASE_ACCUSATIVE; None], 141);
  ([Some PARTICIPLE_FORM_FULL; Some TIME_FUTURE; Some ANIMALITY_INANIMATE; Some NUMBER_PLURAL; Some CASE_INSTRUMENTAL; None], 142);
  ([Some PARTICIPLE_FORM_FULL; Some TIME_FUTURE; Some ANIMALITY_INANIMATE; Some NUMBER_PLURAL; Some CASE_PREPOSITIONAL; None], 143);
  ([Some PARTICIPLE_FORM_SHORT; None; None; Some NUMBER_SINGULAR; None; Some GENDER_MASCULINE], 144);
  ([Some PARTICIPLE_FORM_SHORT; None; None; Some NUMBER_SINGULAR; None; Some GENDER_NEUTER], 145);
  ([Some PARTICIPLE_FORM_SHORT; None; None; Some NUMBER_SINGULAR; None; Some GENDER_FEMININE], 146);
  ([Some PARTICIPLE_FORM_SHORT; None; None; Some NUMBER_PLURAL; None; None], 147)
].

(** utg/migrations/m_0009_pronoun_modernization.py:339-339 *)
Definition m9_OLD_CACHES_INTEGER : dict key nat := dict_literal [
  ([], 0)
].

(** utg/migrations/m_0009_pronoun_modernization.py:340-340 *)
Definition m9_OLD_CACHES_TEXT : dict key nat := dict_literal [
  ([], 0)
].

(** utg/migrations/m_0009_pronoun_modernization.py:341-343 *)
Definition m9_OLD_CACHES_PREPOSITION : dict key nat := dict_literal [
  ([Some PREPOSITION_FORM_NORMAL], 0);
  ([Some PREPOSITION_FORM_ALTERNATIVE], 1);
  ([Some PREPOSITION_FORM_SPECIAL], 2)
].

(** utg/migrations/m_0009_pronoun_modernization.py:28 *)
Definition m9_OLD_CACHES (t : word_type) : dict key nat :=
  match t with
  | WT_NOUN => m9_OLD_CACHES_NOUN
  | WT_ADJECTIVE => m9_OLD_CACHES_ADJECTIVE
  | WT_PRONOUN => m9_OLD_CACHES_PRONOUN
  | WT_VERB => m9_OLD_CACHES_VERB
  | WT_PARTICIPLE => m9_OLD_CACHES_PARTICIPLE
  | WT_INTEGER => m9_OLD_CACHES_INTEGER
  | WT_TEXT => m9_OLD_CACHES_TEXT
  | WT_PREPOSITION => m9_OLD_CACHES_PREPOSITION
  end.

(** utg/migrations/m_0009_pronoun_modernization.py:346-363 *)
Definition m9_NEW_CACHES_NOUN : dict key nat := dict_literal [
  ([Some NOUN_FORM_NORMAL; Some NUMBER_SINGULAR; Some CASE_NOMINATIVE], 0);
  ([Some NOUN_FORM_NORMAL; Some NUMBER_SINGULAR; Some CASE_GENITIVE], 1);
  ([Some NOUN_FORM_NORMAL; Some NUMBER_SINGULAR; Some CASE_DATIVE], 2);
  ([Some NOUN_FORM_NORMAL; Some NUMBER_SINGULAR; Some CASE_ACCUSATIVE], 3);
  ([Some NOUN_FORM_NORMAL; Some NUMBER_SINGULAR; Some CASE_INSTRUMENTAL], 4);
  ([Some NOUN_FORM_NORMAL; Some NUMBER_SINGULAR; Some CASE_PREPOSITIONAL], 5);
  ([Some NOUN_FORM_NORMAL; Some NUMBER_PLURAL; Some CASE_NOMINATIVE], 6);
  ([Some NOUN_FORM_NORMAL; Some NUMBER_PLURAL; Some CASE_GENITIVE], 7);
  ([Some NOUN_FORM_NORMAL; Some NUMBER_PLURAL; Some CASE_DATIVE], 8);
  ([Some NOUN_FORM_NORMAL; Some NUMBER_PLURAL; Some CASE_ACCUSATIVE], 9);
  ([Some NOUN_FORM_NORMAL; Some NUMBER_PLURAL; Some CASE_INSTRUMENTAL], 10);
  ([Some NOUN_FORM_NORMAL; Some NUMBER_PLURAL; Some CASE_PREPOSITIONAL], 11);
  ([Some NOUN_FORM_COUNTABLE; Some NUMBER_PLURAL; Some CASE_NOMINATIVE], 12);
  ([Some NOUN_FORM_COUNTABLE; Some NUMBER_PLURAL; Some CASE_GENITIVE], 13);
  ([Some NOUN_FORM_COUNTABLE; Some NUMBER_PLURAL; Some CASE_DATIVE], 14);
  ([Some NOUN_FORM_COUNTABLE; Some NUMBER_PLURAL; Some CASE_ACCUSATIVE], 15);
  ([Some NOUN_FORM_COUNTABLE; Some NUMBER_PLURAL; Some CASE_INSTRUMENTAL], 16);
  ([Some NOUN_FORM_COUNTABLE; Some NUMBER_PLURAL; Some CASE_PREPOSITIONAL], 17)
].

(** utg/migrations/m_0009_pronoun_modernization.py:364-464 *)
Definition m9_NEW_CACHES_ADJECTIVE : dict key nat := dict_literal [
  ([Some ADJECTIVE_FORM_FULL; Some GRADE_POSITIVE; Some ANIMALITY_ANIMATE; Some NUMBER_SINGULAR; Some CASE_NOMINATIVE; Some GENDER_MASCULINE], 0);
  ([Some ADJECTIVE_FORM_FULL; Some GRADE_POSITIVE; Some ANIMALITY_ANIMATE; Some NUMBER_SINGULAR; Some CASE_NOMINATIVE; Some GENDER_NEUTER], 1);
  ([Some ADJECTIVE_FORM_FULL; Some GRADE_POSITIVE; Some ANIMALITY_ANIMATE; Some NUMBER_SINGULAR; Some CASE_NOMINATIVE; Some GENDER_FEMININE], 2);
  ([Some ADJECTIVE_FORM_FULL; Some GRADE_POSITIVE; Some ANIMALITY_ANIMATE; Some NUMBER_SINGULAR; Some CASE_GENITIVE; Some GENDER_MASCULINE], 3);
  ([Some ADJECTIVE_FORM_FULL; Some GRADE_POSITIVE; Some ANIMALITY_ANIMATE; Some NUMBER_SINGULAR; Some CASE_GENITIVE; Some GENDER_NEUTER], 4);
  ([Some ADJECTIVE_FORM_FULL; Some GRADE_POSITIVE; Some ANIMALITY_ANIMATE; Some NUMBER_SINGULAR; Some CASE_GENITIVE; Some GENDER_FEMININE], 5);
  ([Some ADJECTIVE_FORM_FULL; Some GRADE_POSITIVE; Some ANIMALITY_ANIMATE; Some NUMBER_SINGULAR; Some CASE_DATIVE; Some GENDER_MASCULINE], 6);
  ([Some ADJECTIVE_FORM_FULL; Some GRADE_POSITIVE; Some ANIMALITY_ANIMATE; Some NUMBER_SINGULAR; Some CASE_DATIVE; Some GENDER_NEUTER], 7);
  ([Some ADJECTIVE_FORM_FULL; Some GRADE_POSITIVE; Some ANIMALITY_ANIMATE; Some NUMBER_SINGULAR; Some CASE_DATIVE; Some GENDER_FEMININE], 8);
  ([Some ADJECTIVE_FORM_FULL; Some GRADE_POSITIVE; Some ANIMALITY_ANIMATE; Some NUMBER_SINGULAR; Some CASE_ACCUSATIVE; Some GENDER_MASCULINE], 9);
  ([Some ADJECTIVE_FORM_FULL; Some GRADE_POSITIVE; Some ANIMALITY_ANIMATE; Some NUMBER_SINGULAR; Some CASE_ACCUSATIVE; Some GENDER_NEUTER], 10);
  ([Some ADJECTIVE_FORM_FULL; Some GRADE_POSITIVE; Some ANIMALITY_ANIMATE; Some NUMBER_SINGULAR; Some CASE_ACCUSATIVE; Some GENDER_FEMININE], 11);
  ([Some ADJECTIVE_FORM_FULL; Some GRADE_POSITIVE; Some ANIMALITY_ANIMATE; Some NUMBER_SINGULAR; Some CASE_INSTRUMENTAL; Some GENDER_MASCULINE], 12);
  ([Some ADJECTIVE_FORM_FULL; Some GRADE_POSITIVE; Some ANIMALITY_ANIMATE; Some NUMBER_SINGULAR; Some CASE_INSTRUMENTAL; Some GENDER_NEUTER], 13);
  ([Some ADJECTIVE_FORM_FULL; Some GRADE_POSITIVE; Some ANIMALITY_ANIMATE; Some NUMBER_SINGULAR; Some CASE_INSTRUMENTAL; Some GENDER_FEMININE], 14);
  ([Some ADJECTIVE_FORM_FULL; Some GRADE_POSITIVE; Some ANIMALITY_ANIMATE; Some NUMBER_SINGULAR; Some CASE_PREPOSITIONAL; Some GENDER_MASCULINE], 15);
  ([Some ADJECTIVE_FORM_FULL; Some GRADE_POSITIVE; Some ANIMALITY_ANIMATE; Some NUMBER_SINGULAR; Some CASE_PREPOSITIONAL; Some GENDER_NEUTER], 16);
  ([Some ADJECTIVE_FORM_FULL; Some GRADE_POSITIVE; Some ANIMALITY_ANIMATE; Some NUMBER_SINGULAR; Some CASE_PREPOSITIONAL; Some GENDER_FEMININE], 17);
  ([Some ADJECTIVE_FORM_FULL; Some GRADE_POSITIVE; Some ANIMALITY_ANIMATE; Some NUMBER_PLURAL; Some CASE_NOMINATIVE; None], 18);
  ([Some ADJECTIVE_FORM_FULL; Some GRADE_POSITIVE; Some ANIMALITY_ANIMATE; Some NUMBER_PLURAL; Some CASE_GENITIVE; None], 19);
  ([Some ADJECTIVE_FORM_FULL; Some GRADE_POSITIVE; Some ANIMALITY_ANIMATE; Some NUMBER_PLURAL; Some CASE_DATIVE; None], 20);
  ([Some ADJECTIVE_FORM_FULL; Some GRADE_POSITIVE; Some ANIMALITY_ANIMATE; Some NUMBER_PLURAL; Some CASE_ACCUSATIVE; None], 21);
  ([Some ADJECTIVE_FORM_FULL; Some GRADE_POSITIVE; Some ANIMALITY_ANIMATE; Some NUMBER_PLURAL; Some CASE_INSTRUMENTAL; None], 22);
  ([Some ADJECTIVE_FORM_FULL; Some GRADE_POSITIVE; Some ANIMALITY_ANIMATE; Some NUMBER_PLURAL; Some CASE_PREPOSITIONAL; None], 23);
  ([Some ADJECTIVE_FORM_FULL; Some GRADE_POSITIVE; Some ANIMALITY_INANIMATE; Some NUMBER_SINGULAR; Some CASE_NOMINATIVE; Some GENDER_MASCULINE], 24);
  ([Some ADJECTIVE_FORM_FULL; Some GRADE_POSITIVE; Some ANIMALITY_INANIMATE; Some NUMBER_SINGULAR; Some CASE_NOMINATIVE; Some GENDER_NEUTER], 25);
  ([Some ADJECTIVE_FORM_FULL; Some GRADE_POSITIVE; Some ANIMALITY_INANIMATE; Some NUMBER_SINGULAR; Some CASE_NOMINATIVE; Some GENDER_FEMININE], 26);
  ([Some ADJECTIVE_FORM_FULL; Some GRADE_POSITIVE; Some ANIMALITY_INANIMATE; Some NUMBER_SINGULAR; Some CASE_GENITIVE; Some GENDER_MASCULINE], 27);
  ([Some ADJECTIVE_FORM_FULL; Some GRADE_POSITIVE; Some ANIMALITY_INANIMATE; Some NUMBER_SINGULAR; Some CASE_GENITIVE; Some GENDER_NEUTER], 28);
  ([Some ADJECTIVE_FORM_FULL; Some GRADE_POSITIVE; Some ANIMALITY_INANIMATE; Some NUMBER_SINGULAR; Some CASE_GENITIVE; Some GENDER_FEMININE], 29);
  ([Some ADJECTIVE_FORM_FULL; Some GRADE_POSITIVE; Some ANIMALITY_INANIMATE; Some NUMBER_SINGULAR; Some CASE_DATIVE; Some GENDER_MASCULINE], 30);
  ([Some ADJECTIVE_FORM_FULL; Some GRADE_POSITIVE; Some ANIMALITY_INANIMATE; Some NUMBER_SINGULAR; Some CASE_DATIVE; Some GENDER_NEUTER], 31);
  ([Some ADJECTIVE_FORM_FULL; Some GRADE_POSITIVE; Some ANIMALITY_INANIMATE; Some NUMBER_SINGULAR; Some CASE_DATIVE; Some GENDER_FEMININE], 32);
  ([Some ADJECTIVE_FORM_FULL; Some GRADE_POSITIVE; Some ANIMALITY_INANIMATE; Some NUMBER_SINGULAR; Some CASE_ACCUSATIVE; Some GENDER_MASCULINE], 33);
  ([Some ADJECTIVE_FORM_FULL; Some GRADE_POSITIVE; Some ANIMALITY_INANIMATE; Some NUMBER_SINGULAR; Some CASE_ACCUSATIVE; Some GENDER_NEUTER], 34);
  ([Some ADJECTIVE_FORM_FULL; Some GRADE_POSITIVE; Some ANIMALITY_INANIMATE; Some NUMBER_SINGULAR; Some CASE_ACCUSATIVE; Some GENDER_FEMININE], 35);
  ([Some ADJECTIVE_FORM_FULL; Some GRADE_POSITIVE; Some ANIMALITY_INANIMATE; Some NUMBER_SINGULAR; Some CASE_INSTRUMENTAL; Some GENDER_MASCULINE], 36);
  ([Some ADJECTIVE_FORM_FULL; Some GRADE_POSITIVE; Some ANIMALITY_INANIMATE; Some NUMBER_SINGULAR; Some CASE_INSTRUMENTAL; Some GENDER_NEUTER], 37);
  ([Some ADJECTIVE_FORM_FULL; Some GRADE_POSITIVE; Some ANIMALITY_INANIMATE; Some NUMBER_SINGULAR; Some CASE_INSTRUMENTAL; Some GENDER_FEMININE], 38);
  ([Some ADJECTIVE_FORM_FULL; Some GRADE_POSITIVE; Some ANIMALITY_INANIMATE; Some NUMBER_SINGULAR; Some CASE_PREPOSITIONAL; Some GENDER_MASCULINE], 39);
  ([Some ADJECTIVE_FORM_FULL; Some GRADE_POSITIVE; Some ANIMALITY_INANIMATE; Some NUMBER_SINGULAR; Some CASE_PREPOSITIONAL; Some GENDER_NEUTER], 40);
  ([Some ADJECTIVE_FORM_FULL; Some GRADE_POSITIVE; Some ANIMALITY_INANIMATE; Some NUMBER_SINGULAR; Some CASE_PREPOSITIONAL; Some GENDER_FEMININE], 41);
  ([Some ADJECTIVE_FORM_FULL; Some GRADE_POSITIVE; Some ANIMALITY_INANIMATE; Some NUMBER_PLURAL; Some CASE_NOMINATIVE; None], 42);
  ([Some ADJECTIVE_FORM_FULL; Some GRADE_POSITIVE; Some ANIMALITY_INANIMATE; Some NUMBER_PLURAL; Some CASE_GENITIVE; None], 43);
  ([Some ADJECTIVE_FORM_FULL; Some GRADE_POSITIVE; Some ANIMALITY_INANIMATE; Some NUMBER_PLURAL; Some CASE_DATIVE; None], 44);
  ([Some ADJECTIVE_FORM_FULL; Some GRADE_POSITIVE; Some ANIMALITY_INANIMATE; Some NUMBER_PLURAL; Some CASE_ACCUSATIVE; None], 45);
  ([Some ADJECTIVE_FORM_FULL; Some GRADE_POSITIVE; Some ANIMALITY_INANIMATE; Some NUMBER_PLURAL; Some CASE_INSTRUMENTAL; None], 46);
  ([Some ADJECTIVE_FORM_FULL; Some GRADE_POSITIVE; Some ANIMALITY_INANIMATE; Some NUMBER_PLURAL; Some CASE_PREPOSITIONAL; None], 47);
  ([Some ADJECTIVE_FORM_FULL; Some GRADE_COMPARATIVE; None; None; None; None], 48);
  ([Some ADJECTIVE_FORM_FULL; Some GRADE_SUPERLATIVE; Some ANIMALITY_ANIMATE; Some NUMBER_SINGULAR; Some CASE_NOMINATIVE; Some GENDER_MASCULINE], 49);
  ([Some ADJECTIVE_FORM_FULL; Some GRADE_SUPERLATIVE; Some ANIMALITY_ANIMATE; Some NUMBER_SINGULAR; Some CASE_NOMINATIVE; Some GENDER_NEUTER], 50);
  ([Some ADJECTIVE_FORM_FULL; Some GRADE_SUPERLATIVE; Some ANIMALITY_ANIMATE; Some NUMBER_SINGULAR; Some CASE_NOMINATIVE; Some GENDER_FEMININE], 51);
  ([Some ADJECTIVE_FORM_FULL; Some GRADE_SUPERLATIVE; Some ANIMALITY_ANIMATE; Some NUMBER_SINGULAR; Some CASE_GENITIVE; Some GENDER_MASCULINE], 52);
  ([Some ADJECTIVE_FORM_FULL; Some GRADE_SUPERLATIVE; Some ANIMALITY_ANIMATE; Some NUMBER_SINGULAR; Some CASE_GENITIVE; Some GENDER_NEUTER], 53);
  ([Some ADJECTIVE_FORM_FULL; Some GRADE_SUPERLATIVE; Some ANIMALITY_ANIMATE; Some NUMBER_SINGULAR; Some CASE_GENITIVE; Some GENDER_FEMININE], 54);
  ([Some ADJECTIVE_FORM_FULL; Some GRADE_SUPERLATIVE; Some ANIMALITY_ANIMATE; Some NUMBER_SINGULAR; Some CASE_DATIVE; Some GENDER_MASCULINE], 55);
  ([Some ADJECTIVE_FORM_FULL; Some GRADE_SUPERLATIVE; Some ANIMALITY_ANIMATE; Some NUMBER_SINGULAR; Some CASE_DATIVE; Some GENDER_NEUTER], 56);
  ([Some ADJECTIVE_FORM_FULL; Some GRADE_SUPERLATIVE; Some ANIMALITY_ANIMATE; Some NUMBER_SINGULAR; Some CASE_DATIVE; Some GENDER_FEMININE], 57);
  ([Some ADJECTIVE_FORM_FULL; Some GRADE_SUPERLATIVE; Some ANIMALITY_ANIMATE; Some NUMBER_SINGULAR; Some CASE_ACCUSATIVE; Some GENDER_MASCULINE], 58);
  ([Some ADJECTIVE_FORM_FULL; Some GRADE_SUPERLATIVE; Some ANIMALITY_ANIMATE; Some NUMBER_SINGULAR; Some CASE_ACCUSATIVE; Some GENDER_NEUTER], 59);
  ([Some ADJECTIVE_FORM_FULL; Some GRADE_SUPERLATIVE; Some ANIMALITY_ANIMATE; Some NUMBER_SINGULAR; Some CASE_ACCUSATIVE; Some GENDER_FEMININE], 60);
  ([Some ADJECTIVE_FORM_FULL; Some GRADE_SUPERLATIVE; Some ANIMALITY_ANIMATE; Some NUMBER_SINGULAR; Some CASE_INSTRUMENTAL; Some GENDER_MASCULINE], 61);
  ([Some ADJECTIVE_FORM_FULL; Some GRADE_SUPERLATIVE; Some ANIMALITY_ANIMATE; Some NUMBER_SINGULAR; Some CASE_INSTRUMENTAL; Some GENDER_NEUTER], 62);
  ([Some ADJECTIVE_FORM_FULL; Some GRADE_SUPERLATIVE; Some ANIMALITY_ANIMATE; Some NUMBER_SINGULAR; Some CASE_INSTRUMENTAL; Some GENDER_FEMININE], 63);
  ([Some ADJECTIVE_FORM_FULL; Some GRADE_SUPERLATIVE; Some ANIMALITY_ANIMATE; Some NUMBER_SINGULAR; Some CASE_PREPOSITIONAL; Some GENDER_MASCULINE], 64);
  ([Some ADJECTIVE_FORM_FULL; Some GRADE_SUPERLATIVE; Some ANIMALITY_ANIMATE; Some NUMBER_SINGULAR; Some CASE_PREPOSITIONAL; Some GENDER_NEUTER], 65);
  ([Some ADJECTIVE_FORM_FULL; Some GRADE_SUPERLATIVE; Some ANIMALITY_ANIMATE; Some NUMBER_SINGULAR; Some CASE_PREPOSITIONAL; Some GENDER_FEMININE], 66);
  ([Some ADJECTIVE_FORM_FULL; Some GRADE_SUPERLATIVE; Some ANIMALITY_ANIMATE; Some NUMBER_PLURAL; Some CASE_NOMINATIVE; None], 67);
  ([Some ADJECTIVE_FORM_FULL; Some GRADE_SUPERLATIVE; Some ANIMALITY_ANIMATE; Some NUMBER_PLURAL; Some CASE_GENITIVE; None], 68);
  ([Some ADJECTIVE_FORM_FULL; Some GRADE_SUPERLATIVE; Some ANIMALITY_ANIMATE; Some NUMBER_PLURAL; Some CASE_DATIVE; None], 69);
  ([Some ADJECTIVE_FORM_FULL; Some GRADE_SUPERLATIVE; Some ANIMALITY_ANIMATE; Some NUMBER_PLURAL; Some CASE_ACCUSATIVE; None], 70);
  ([Some ADJECTIVE_FORM_FULL; Some GRADE_SUPERLATIVE; Some ANIMALITY_ANIMATE; Some NUMBER_PLURAL; Some CASE_INSTRUMENTAL; None], 71);
  ([Some ADJECTIVE_FORM_FULL; Some GRADE_SUPERLATIVE; Some ANIMALITY_ANIMATE; Some NUMBER_PLURAL; Some CASE_PREPOSITIONAL; None], 72);
  ([Some ADJECTIVE_FORM_FULL; Some GRADE_SUPERLATIVE; Some ANIMALITY_INANIMATE; Some NUMBER_SINGULAR; Some CASE_NOMINATIVE; Some GENDER_MASCULINE], 73);
  ([Some ADJECTIVE_FORM_FULL; Some GRADE_SUPERLATIVE; Some ANIMALITY_INANIMATE; Some NUMBER_SINGULAR; Some CASE_NOMINATIVE; Some GENDER_NEUTER], 74);
  ([Some ADJECTIVE_FORM_FULL; Some GRADE_SUPERLATIVE; Some ANIMALITY_INANIMATE; Some NUMBER_SINGULAR; Some CASE_NOMINATIVE; Some GENDER_FEMININE], 75);
  ([Some ADJECTIVE_FORM_FULL; Some GRADE_SUPERLATIVE; Some ANIMALITY_INANIMATE; Some NUMBER_SINGULAR; Some CASE_GENITIVE; Some GENDER_MASCULINE], 76);
  ([Some ADJECTIVE_FORM_FULL; Some GRADE_SUPERLATIVE; Some ANIMALITY_INANIMATE; Some NUMBER_SINGULAR; Some CASE_GENITIVE; Some GENDER_NEUTER], 77);
  ([Some ADJECTIVE_FORM_FULL; Some GRADE_SUPERLATIVE; Some ANIMALITY_INANIMATE; Some NUMBER_SINGULAR; Some CASE_GENITIVE; Some GENDER_FEMININE], 78);
  ([Some ADJECTIVE_FORM_FULL; Some GRADE_SUPERLATIVE; Some ANIMALITY_INANIMATE; Some NUMBER_SINGULAR; Some CASE_DATIVE; Some GENDER_MASCULINE], 79);
  ([Some ADJECTIVE_FORM_FULL; Some GRADE_SUPERLATIVE; Some ANIMALITY_INANIMATE; Some NUMBER_SINGULAR; Some CASE_DATIVE; Some GENDER_NEUTER], 80);
  ([Some ADJECTIVE_FORM_FULL; Some GRADE_SUPERLATIVE; Some ANIMALITY_INANIMATE; Some NUMBER_SINGULAR; Some CASE_DATIVE; Some GENDER_FEMININE], 81);
  ([Some ADJECTIVE_FORM_FULL; Some GRADE_SUPERLATIVE; Some ANIMALITY_INANIMATE; Some NUMBER_SINGULAR; Some CASE_ACCUSATIVE; Some GENDER_MASCULINE], 82);
  ([Some ADJECTIVE_FORM_FULL; Some GRADE_SUPERLATIVE; Some ANIMALITY_INANIMATE; Some NUMBER_SINGULAR; Some CASE_ACCUSATIVE; Some GENDER_NEUTER], 83);
  ([Some ADJECTIVE_FORM_FULL; Some GRADE_SUPERLATIVE; Some ANIMALITY_INANIMATE; Some NUMBER_SINGULAR; Some CASE_ACCUSATIVE; Some GENDER_FEMININE], 84);
  ([Some ADJECTIVE_FORM_FULL; Some GRADE_SUPERLATIVE; Some ANIMALITY_INANIMATE; Some NUMBER_SINGULAR; Some CASE_INSTRUMENTAL; Some GENDER_MASCULINE], 85);
  ([Some ADJECTIVE_FORM_FULL; Some GRADE_SUPERLATIVE; Some ANIMALITY_INANIMATE; Some NUMBER_SINGULAR; Some CASE_INSTRUMENTAL; Some GENDER_NEUTER], 86);
  ([Some ADJECTIVE_FORM_FULL; Some GRADE_SUPERLATIVE; Some ANIMALITY_INANIMATE; Some NUMBER_SINGULAR; Some CASE_INSTRUMENTAL; Some GENDER_FEMININE], 87);
  ([Some ADJECTIVE_FORM_FULL; Some GRADE_SUPERLATIVE; Some ANIMALITY_INANIMATE; Some NUMBER_SINGULAR; Some CASE_PREPOSITIONAL; Some GENDER_MASCULINE], 88);
  ([Some ADJECTIVE_FORM_FULL; Some GRADE_SUPERLATIVE; Some ANIMALITY_INANIMATE; Some NUMBER_SINGULAR; Some CASE_PREPOSITIONAL; Some GENDER_NEUTER], 89);
  ([Some ADJECTIVE_FORM_FULL; Some GRADE_SUPERLATIVE; Some ANIMALITY_INANIMATE; Some NUMBER_SINGULAR; Some CASE_PREPOSITIONAL; Some GENDER_FEMININE], 90);
  ([Some ADJECTIVE_FORM_FULL; Some GRADE_SUPERLATIVE; Some ANIMALITY_INANIMATE; Some NUMBER_PLURAL; Some CASE_NOMINATIVE; None], 91);
  ([Some ADJECTIVE_FORM_FULL; Some GRADE_SUPERLATIVE; Some ANIMALITY_INANIMATE; Some NUMBER_PLURAL; Some CASE_GENITIVE; None], 92);
  ([Some ADJECTIVE_FORM_FULL; Some GRADE_SUPERLATIVE; Some ANIMALITY_INANIMATE; Some NUMBER_PLURAL; Some CASE_DATIVE; None], 93);
  ([Some ADJECTIVE_FORM_FULL; Some GRADE_SUPERLATIVE; Some ANIMALITY_INANIMATE; Some NUMBER_PLURAL; Some CASE_ACCUSATIVE; None], 94);
  ([Some ADJECTIVE_FORM_FULL; Some GRADE_SUPERLATIVE; Some ANIMALITY_INANIMATE; Some NUMBER_PLURAL; Some CASE_INSTRUMENTAL; None], 95);
  ([Some ADJECTIVE_FORM_FULL; Some GRADE_SUPERLATIVE; Some ANIMALITY_INANIMATE; Some NUMBER_PLURAL; Some CASE_PREPOSITIONAL; None], 96);
  ([Some ADJECTIVE_FORM_SHORT; None; None; Some NUMBER_SINGULAR; None; Some GENDER_MASCULINE], 97);
  ([Some ADJECTIVE_FORM_SHORT; None; None; Some NUMBER_SINGULAR; None; Some GENDER_NEUTER], 98);
  ([Some ADJECTIVE_FORM_SHORT; None; None; Some NUMBER_SINGULAR; None; Some GENDER_FEMININE], 99);
  ([Some ADJECTIVE_FORM_SHORT; None; None; Some NUMBER_PLURAL; None; None], 100)
].

(** utg/migrations/m_0009_pronoun_modernization.py:465-512 *)
Definition m9_NEW_CACHES_PRONOUN : dict key nat := dict_literal [
  ([Some ANIMALITY_ANIMATE; Some NUMBER_SINGULAR; Some CASE_NOMINATIVE; Some GENDER_MASCULINE], 0);
  ([Some ANIMALITY_ANIMATE; Some NUMBER_SINGULAR; Some CASE_NOMINATIVE; Some GENDER_NEUTER], 1);
  ([Some ANIMALITY_ANIMATE; Some NUMBER_SINGULAR; Some CASE_NOMINATIVE; Some GENDER_FEMININE], 2);
  ([Some ANIMALITY_ANIMATE; Some NUMBER_SINGULAR; Some CASE_GENITIVE; Some GENDER_MASCULINE], 3);
  ([Some ANIMALITY_ANIMATE; Some NUMBER_SINGULAR; Some CASE_GENITIVE; Some GENDER_NEUTER], 4);
  ([Some ANIMALITY_ANIMATE; Some NUMBER_SINGULAR; Some CASE_GENITIVE; Some GENDER_FEMININE], 5);
  ([Some ANIMALITY_ANIMATE; Some NUMBER_SINGULAR; Some CASE_DATIVE; Some GENDER_MASCULINE], 6);
  ([Some ANIMALITY_ANIMATE; Some NUMBER_SINGULAR; Some CASE_DATIVE; Some GENDER_NEUTER], 7);
  ([Some ANIMALITY_ANIMATE; Some NUMBER_SINGULAR; Some CASE_DATIVE; Some GENDER_FEMININE], 8);
  ([Some ANIMALITY_ANIMATE; Some NUMBER_SINGULAR; Some CASE_ACCUSATIVE; Some GENDER_MASCULINE], 9);
  ([Some ANIMALITY_ANIMATE; Some NUMBER_SINGULAR; Some CASE_ACCUSATIVE; Some GENDER_NEUTER], 10);
  ([Some ANIMALITY_ANIMATE; Some NUMBER_SINGULAR; Some CASE_ACCUSATIVE; Some GENDER_FEMININE], 11);
  ([Some ANIMALITY_ANIMATE; Some NUMBER_SINGULAR; Some CASE_INSTRUMENTAL; Some GENDER_MASCULINE], 12);
  ([Some ANIMALITY_ANIMATE; Some NUMBER_SINGULAR; Some CASE_INSTRUMENTAL; Some GENDER_NEUTER], 13);
  ([Some ANIMALITY_ANIMATE; Some NUMBER_SINGULAR; Some CASE_INSTRUMENTAL; Some GENDER_FEMININE], 14);
  ([Some ANIMALITY_ANIMATE; Some NUMBER_SINGULAR; Some CASE_PREPOSITIONAL; Some GENDER_MASCULINE], 15);
  ([Some ANIMALITY_ANIMATE; Some NUMBER_SINGULAR; Some CASE_PREPOSITIONAL; Some GENDER_NEUTER], 16);
  ([Some ANIMALITY_ANIMATE; Some NUMBER_SINGULAR; Some CASE_PREPOSITIONAL; Some GENDER_FEMININE], 17);
  ([Some ANIMALITY_ANIMATE; Some NUMBER_PLURAL; Some CASE_NOMINATIVE; None], 18);
  ([Some ANIMALITY_ANIMATE; Some NUMBER_PLURAL; Some CASE_GENITIVE; None], 19);
  ([Some ANIMALITY_ANIMATE; Some NUMBER_PLURAL; Some CASE_DATIVE; None], 20);
  ([Some ANIMALITY_ANIMATE; Some NUMBER_PLURAL; Some CASE_ACCUSATIVE; None], 21);
  ([Some ANIMALITY_ANIMATE; Some NUMBER_PLURAL; Some CASE_INSTRUMENTAL; None], 22);
  ([Some ANIMALITY_ANIMATE; Some NUMBER_PLURAL; Some CASE_PREPOSITIONAL; None], 23);
  ([Some ANIMALITY_INANIMATE; Some NUMBER_SINGULAR; Some CASE_NOMINATIVE; Some GENDER_MASCULINE], 24);
  ([Some ANIMALITY_INANIMATE; Some NUMBER_SINGULAR; Some CASE_NOMINATIVE; Some GENDER_NEUTER], 25);
  ([Some ANIMALITY_INANIMATE; Some NUMBER_SINGULAR; Some CASE_NOMINATIVE; Some GENDER_FEMININE], 26);
  ([Some ANIMALITY_INANIMATE; Some NUMBER_SINGULAR; Some CASE_GENITIVE; Some GENDER_MASCULINE], 27);
  ([Some ANIMALITY_INANIMATE; Some NUMBER_SINGULAR; Some CASE_GENITIVE; Some GENDER_NEUTER], 28);
  ([Some ANIMALITY_INANIMATE; Some NUMBER_SINGULAR; Some CASE_GENITIVE; Some GENDER_FEMININE], 29);
  ([Some ANIMALITY_INANIMATE; Some NUMBER_SINGULAR; Some CASE_DATIVE; Some GENDER_MASCULINE], 30);
  ([Some ANIMALITY_INANIMATE; Some NUMBER_SINGULAR; Some CASE_DATIVE; Some GENDER_NEUTER], 31);
  ([Some ANIMALITY_INANIMATE; Some NUMBER_SINGULAR; Some CASE_DATIVE; Some GENDER_FEMININE], 32);
  ([Some ANIMALITY_INANIMATE; Some NUMBER_SINGULAR; Some CASE_ACCUSATIVE; Some GENDER_MASCULINE], 33);
  ([Some ANIMALITY_INANIMATE; Some NUMBER_SINGULAR; Some CASE_ACCUSATIVE; Some GENDER_NEUTER], 34);
  ([Some ANIMALITY_INANIMATE; Some NUMBER_SINGULAR; Some CASE_ACCUSATIVE; Some GENDER_FEMININE], 35);
  ([Some ANIMALITY_INANIMATE; Some NUMBER_SINGULAR; Some CASE_INSTRUMENTAL; Some GENDER_MASCULINE], 36);
  ([Some ANIMALITY_INANIMATE; Some NUMBER_SINGULAR; Some CASE_INSTRUMENTAL; Some GENDER_NEUTER], 37);
  ([Some ANIMALITY_INANIMATE; Some NUMBER_SINGULAR; Some CASE_INSTRUMENTAL; Some GENDER_FEMININE], 38);
  ([Some ANIMALITY_INANIMATE; Some NUMBER_SINGULAR; Some CASE_PREPOSITIONAL; Some GENDER_MASCULINE], 39);
  ([Some ANIMALITY_INANIMATE; Some NUMBER_SINGULAR; Some CASE_PREPOSITIONAL; Some GENDER_NEUTER], 40);
  ([Some ANIMALITY_INANIMATE; Some NUMBER_SINGULAR; Some CASE_PREPOSITIONAL; Some GENDER_FEMININE], 41);
  ([Some ANIMALITY_INANIMATE; Some NUMBER_PLURAL; Some CASE_NOMINATIVE; None], 42);
  ([Some ANIMALITY_INANIMATE; Some NUMBER_PLURAL; Some CASE_GENITIVE; None], 43);
  ([Some ANIMALITY_INANIMATE; Some NUMBER_PLURAL; Some CASE_DATIVE; None], 44);
  ([Some ANIMALITY_INANIMATE; Some NUMBER_PLURAL; Some CASE_ACCUSATIVE; None], 45);
  ([Some ANIMALITY_INANIMATE; Some NUMBER_PLURAL; Some CASE_INSTRUMENTAL; None], 46);
  ([Some ANIMALITY_INANIMATE; Some NUMBER_PLURAL; Some CASE_PREPOSITIONAL; None], 47)
].

(** utg/migrations/m_0009_pronoun_modernization.py:513-532 *)
Definition m9_NEW_CACHES_VERB : dict key nat := dict_literal [
  ([Some VERB_FORM_INFINITIVE; None; None; None; None], 0);
  ([Some VERB_FORM_INDICATIVE; Some TIME_PAST; Some NUMBER_SINGULAR; None; Some GENDER_MASCULINE], 1);
  ([Some VERB_FORM_INDICATIVE; Some TIME_PAST; Some NUMBER_SINGULAR; None; Some GENDER_NEUTER], 2);
  ([Some VERB_FORM_INDICATIVE; Some TIME_PAST; Some NUMBER_SINGULAR; None; Some GENDER_FEMININE], 3);
  ([Some VERB_FORM_INDICATIVE; Some TIME_PAST; Some NUMBER_PLURAL; None; None], 4);
  ([Some VERB_FORM_INDICATIVE; Some TIME_PRESENT; Some NUMBER_SINGULAR; Some PERSON_FIRST; None], 5);
  ([Some VERB_FORM_INDICATIVE; Some TIME_PRESENT; Some NUMBER_SINGULAR; Some PERSON_SECOND; None], 6);
  ([Some VERB_FORM_INDICATIVE; Some TIME_PRESENT; Some NUMBER_SINGULAR; Some PERSON_THIRD; None], 7);
  ([Some VERB_FORM_INDICATIVE; Some TIME_PRESENT; Some NUMBER_PLURAL; Some PERSON_FIRST; None], 8);
  ([Some VERB_FORM_INDICATIVE; Some TIME_PRESENT; Some NUMBER_PLURAL; Some PERSON_SECOND; None], 9);
  ([Some VERB_FORM_INDICATIVE; Some TIME_PRESENT; Some NUMBER_PLURAL; Some PERSON_THIRD; None], 10);
  ([Some VERB_FORM_INDICATIVE; Some TIME_FUTURE; Some NUMBER_SINGULAR; Some PERSON_FIRST; None], 11);
  ([Some VERB_FORM_INDICATIVE; Some TIME_FUTURE; Some NUMBER_SINGULAR; Some PERSON_SECOND; None], 12);
  ([Some VERB_FORM_INDICATIVE; Some TIME_FUTURE; Some NUMBER_SINGULAR; Some PERSON_THIRD; None], 13);
  ([Some VERB_FORM_INDICATIVE; Some TIME_FUTURE; Some NUMBER_PLURAL; Some PERSON_FIRST; None], 14);
  ([Some VERB_FORM_INDICATIVE; Some TIME_FUTURE; Some NUMBER_PLURAL; Some PERSON_SECOND; None], 15);
  ([Some VERB_FORM_INDICATIVE; Some TIME_FUTURE; Some NUMBER_PLURAL; Some PERSON_THIRD; None], 16);
  ([Some VERB_FORM_IMPERATIVE; None; Some NUMBER_SINGULAR; Some PERSON_SECOND; None], 17);
  ([Some VERB_FORM_IMPERATIVE; None; Some NUMBER_PLURAL; Some PERSON_FIRST; None], 18);
  ([Some VERB_FORM_IMPERATIVE; None; Some NUMBER_PLURAL; Some PERSON_SECOND; None], 19)
].

(** utg/migrations/m_0009_pronoun_modernization.py:533-680 *)
Definition m9_NEW_CACHES_PARTICIPLE : dict key nat := dict_literal [
  ([Some PARTICIPLE_FORM_FULL; Some TIME_PAST; Some ANIMALITY_ANIMATE; Some NUMBER_SINGULAR; Some CASE_NOMINATIVE; Some GENDER_MASCULINE], 0);
  ([Some PARTICIPLE_FORM_FULL; Some TIME_PAST; Some ANIMALITY_ANIMATE; Some NUMBER_SINGULAR; Some CASE_NOMINATIVE; Some GENDER_NEUTER], 1);
  ([Some PARTICIPLE_FORM_FULL; Some TIME_PAST; Some ANIMALITY_ANIMATE; Some NUMBER_SINGULAR; Some CASE_NOMINATIVE; Some GENDER_FEMININE], 2);
  ([Some PARTICIPLE_FORM_FULL; Some TIME_PAST; Some ANIMALITY_ANIMATE; Some NUMBER_SINGULAR; Some CASE_GENITIVE; Some GENDER_MASCULINE], 3);
  ([Some PARTICIPLE_FORM_FULL; Some TIME_PAST; Some ANIMALITY_ANIMATE; Some NUMBER_SINGULAR; Some CASE_GENITIVE; Some GENDER_NEUTER], 4);
  ([Some PARTICIPLE_FORM_FULL; Some TIME_PAST; Some ANIMALITY_ANIMATE; Some NUMBER_SINGULAR; Some CASE_GENITIVE; Some GENDER_FEMININE], 5);
  ([Some PARTICIPLE_FORM_FULL; Some TIME_PAST; Some ANIMALITY_ANIMATE; Some NUMBER_SINGULAR; Some CASE_DATIVE; Some GENDER_MASCULINE], 6);
  ([Some PARTICIPLE_FORM_FULL; Some TIME_PAST; Some ANIMALITY_ANIMATE; Some NUMBER_SINGULAR; Some CASE_DATIVE; Some GENDER_NEUTER], 7);
  ([Some PARTICIPLE_FORM_FULL; Some TIME_PAST; Some ANIMALITY_ANIMATE; Some NUMBER_SINGULAR; Some CASE_DATIVE; Some GENDER_FEMININE], 8);
  ([Some PARTICIPLE_FORM_FULL; Some TIME_PAST; Some ANIMALITY_ANIMATE; Some NUMBER_SINGULAR; Some CASE_ACCUSATIVE; Some GENDER_MASCULINE], 9);
  ([Some PARTICIPLE_FORM_FULL; Some TIME_PAST; Some ANIMALITY_ANIMATE; Some NUMBER_SINGULAR; Some CASE_ACCUSATIVE; Some GENDER_NEUTER], 10);
  ([Some PARTICIPLE_FORM_FULL; Some TIME_PAST; Some ANIMALITY_ANIMATE; Some NUMBER_SINGULAR; Some CASE_ACCUSATIVE; Some GENDER_FEMININE], 11);
  ([Some PARTICIPLE_FORM_FULL; Some TIME_PAST; Some ANIMALITY_ANIMATE; Some NUMBER_SINGULAR; Some CASE_INSTRUMENTAL; Some GENDER_MASCULINE], 12);
  ([Some PARTICIPLE_FORM_FULL; Some TIME_PAST; Some ANIMALITY_ANIMATE; Some NUMBER_SINGULAR; Some CASE_INSTRUMENTAL; Some GENDER_NEUTER], 13);
  ([Some PARTICIPLE_FORM_FULL; Some TIME_PAST; Some ANIMALITY_ANIMATE; Some NUMBER_SINGULAR; Some CASE_INSTRUMENTAL; Some GENDER_FEMININE], 14);
  ([Some PARTICIPLE_FORM_FULL; Some TIME_PAST; Some ANIMALITY_ANIMATE; Some NUMBER_SINGULAR; Some CASE_PREPOSITIONAL; Some GENDER_MASCULINE], 15);
  ([Some PARTICIPLE_FORM_FULL; Some TIME_PAST; Some ANIMALITY_ANIMATE; Some NUMBER_SINGULAR; Some CASE_PREPOSITIONAL; Some GENDER_NEUTER], 16);
  ([Some PARTICIPLE_FORM_FULL; Some TIME_PAST; Some ANIMALITY_ANIMATE; Some NUMBER_SINGULAR; Some CASE_PREPOSITIONAL; Some GENDER_FEMININE], 17);
  ([Some PARTICIPLE_FORM_FULL; Some TIME_PAST; Some ANIMALITY_ANIMATE; Some NUMBER_PLURAL; Some CASE_NOMINATIVE; None], 18);
  ([Some PARTICIPLE_FORM_FULL; Some TIME_PAST; Some ANIMALITY_ANIMATE; Some NUMBER_PLURAL; Some CASE_GENITIVE; None], 19);
  ([Some PARTICIPLE_FORM_FULL; Some TIME_PAST; Some ANIMALITY_ANIMATE; Some NUMBER_PLURAL; Some CASE_DATIVE; None], 20);
  ([Some PARTICIPLE_FORM_FULL; Some TIME_PAST; Some ANIMALITY_ANIMATE; Some NUMBER_PLURAL; Some CASE_ACCUSATIVE; None], 21);
  ([Some PARTICIPLE_FORM_FULL; Some TIME_PAST; Some ANIMALITY_ANIMATE; Some NUMBER_PLURAL; Some CASE_INSTRUMENTAL; None], 22);
  ([Some PARTICIPLE_FORM_FULL; Some TIME_PAST; Some ANIMALITY_ANIMATE; Some NUMBER_PLURAL; Some CASE_PREPOSITIONAL; None], 23);
  ([Some PARTICIPLE_FORM_FULL; Some TIME_PAST; Some ANIMALITY_INANIMATE; Some NUMBER_SINGULAR; Some CASE_NOMINATIVE; Some GENDER_MASCULINE], 24);
  ([Some PARTICIPLE_FORM_FULL; Some TIME_PAST; Some ANIMALITY_INANIMATE; Some NUMBER_SINGULAR; Some CASE_NOMINATIVE; Some GENDER_NEUTER], 25);
  ([Some PARTICIPLE_FORM_FULL; Some TIME_PAST; Some ANIMALITY_INANIMATE; Some NUMBER_SINGULAR; Some CASE_NOMINATIVE; Some GENDER_FEMININE], 26);
  ([Some PARTICIPLE_FORM_FULL; Some TIME_PAST; Some ANIMALITY_INANIMATE; Some NUMBER_SINGULAR; Some CASE_GENITIVE; Some GENDER_MASCULINE], 27);
  ([Some PARTICIPLE_FORM_FULL; Some TIME_PAST; Some ANIMALITY_INANIMATE; Some NUMBER_SINGULAR; Some CASE_GENITIVE; Some GENDER_NEUTER], 28);
  ([Some PARTICIPLE_FORM_FULL; Some TIME_PAST; Some ANIMALITY_INANIMATE; Some NUMBER_SINGULAR; Some CASE_GENITIVE; Some GENDER_FEMININE], 29);
  ([Some PARTICIPLE_FORM_FULL; Some TIME_PAST; Some ANIMALITY_INANIMATE; Some NUMBER_SINGULAR; Some CASE_DATIVE; Some GENDER_MASCULINE], 30);
  ([Some PARTICIPLE_FORM_FULL; Some TIME_PAST; Some ANIMALITY_INANIMATE; Some NUMBER_SINGULAR; Some CASE_DATIVE; Some GENDER_NEUTER], 31);
  ([Some PARTICIPLE_FORM_FULL; Some TIME_PAST; Some ANIMALITY_INANIMATE; Some NUMBER_SINGULAR; Some CASE_DATIVE; Some GENDER_FEMININE], 32);
  ([Some PARTICIPLE_FORM_FULL; Some TIME_PAST; Some ANIMALITY_INANIMATE; Some NUMBER_SINGULAR; Some CASE_ACCUSATIVE; Some GENDER_MASCULINE], 33);
  ([Some PARTICIPLE_FORM_FULL; Some TIME_PAST; Some ANIMALITY_INANIMATE; Some NUMBER_SINGULAR; Some CASE_ACCUSATIVE; Some GENDER_NEUTER], 34);
  ([Some PARTICIPLE_FORM_FULL; Some TIME_PAST; Some ANIMALITY_INANIMATE; Some NUMBER_SINGULAR; Some CASE_ACCUSATIVE; Some GENDER_FEMININE], 35);
  ([Some PARTICIPLE_FORM_FULL; Some TIME_PAST; Some ANIMALITY_INANIMATE; Some NUMBER_SINGULAR; Some CASE_INSTRUMENTAL; Some GENDER_MASCULINE], 36);
  ([Some PARTICIPLE_FORM_FULL; Some TIME_PAST; Some ANIMALITY_INANIMATE; Some NUMBER_SINGULAR; Some CASE_INSTRUMENTAL; Some GENDER_NEUTER], 37);
  ([Some PARTICIPLE_FORM_FULL; Some TIME_PAST; Some ANIMALITY_INANIMATE; Some NUMBER_SINGULAR; Some CASE_INSTRUMENTAL; Some GENDER_FEMININE], 38);
  ([Some PARTICIPLE_FORM_FULL; Some TIME_PAST; Some ANIMALITY_INANIMATE; Some NUMBER_SINGULAR; Some CASE_PREPOSITIONAL; Some GENDER_MASCULINE], 39);
  ([Some PARTICIPLE_FORM_FULL; Some TIME_PAST; Some ANIMALITY_INANIMATE; Some NUMBER_SINGULAR; Some CASE_PREPOSITIONAL; Some GENDER_NEUTER], 40);
  ([Some PARTICIPLE_FORM_FULL; Some TIME_PAST; Some ANIMALITY_INANIMATE; Some NUMBER_SINGULAR; Some CASE_PREPOSITIONAL; Some GENDER_FEMININE], 41);
  ([Some PARTICIPLE_FORM_FULL; Some TIME_PAST; Some ANIMALITY_INANIMATE; Some NUMBER_PLURAL; Some CASE_NOMINATIVE; None], 42);
  ([Some PARTICIPLE_FORM_FULL; Some TIME_PAST; Some ANIMALITY_INANIMATE; Some NUMBER_PLURAL; Some CASE_GENITIVE; None], 43);
  ([Some PARTICIPLE_FORM_FULL; Some TIME_PAST; Some ANIMALITY_INANIMATE; Some NUMBER_PLURAL; Some CASE_DATIVE; None], 44);
  ([Some PARTICIPLE_FORM_FULL; Some TIME_PAST; Some ANIMALITY_INANIMATE; Some NUMBER_PLURAL; Some CASE_ACCUSATIVE; None], 45);
  ([Some PARTICIPLE_FORM_FULL; Some TIME_PAST; Some ANIMALITY_INANIMATE; Some NUMBER_PLURAL; Some CASE_INSTRUMENTAL; None], 46);
  ([Some PARTICIPLE_FORM_FULL; Some TIME_PAST; Some ANIMALITY_INANIMATE; Some NUMBER_PLURAL; Some CASE_PREPOSITIONAL; None], 47);
  ([Some PARTICIPLE_FORM_FULL; Some TIME_PRESENT; Some ANIMALITY_ANIMATE; Some NUMBER_SINGULAR; Some CASE_NOMINATIVE; Some GENDER_MASCULINE], 48);
  ([Some PARTICIPLE_FORM_FULL; Some TIME_PRESENT; Some ANIMALITY_ANIMATE; Some NUMBER_SINGULAR; Some CASE_NOMINATIVE; Some GENDER_NEUTER], 49);
  ([Some PARTICIPLE_FORM_FULL; Some TIME_PRESENT; Some ANIMALITY_ANIMATE; Some NUMBER_SINGULAR; Some CASE_NOMINATIVE; Some GENDER_FEMININE], 50);
  ([Some PARTICIPLE_FORM_FULL; Some TIME_PRESENT; Some ANIMALITY_ANIMATE; Some NUMBER_SINGULAR; Some CASE_GENITIVE; Some GENDER_MASCULINE], 51);
  ([Some PARTICIPLE_FORM_FULL; Some TIME_PRESENT; Some ANIMALITY_ANIMATE; Some NUMBER_SINGULAR; Some CASE_GENITIVE; Some GENDER_NEUTER], 52);
  ([Some PARTICIPLE_FORM_FULL; Some TIME_PRESENT; Some ANIMALITY_ANIMATE; Some NUMBER_SINGULAR; Some CASE_GENITIVE; Some GENDER_FEMININE], 53);
  ([Some PARTICIPLE_FORM_FULL; Some TIME_PRESENT; Some ANIMALITY_ANIMATE; Some NUMBER_SINGULAR; Some CASE_DATIVE; Some GENDER_MASCULINE], 54);
  ([Some PARTICIPLE_FORM_FULL; Some TIME_PRESENT; Some ANIMALITY_ANIMATE; Some NUMBER_SINGULAR; Some CASE_DATIVE; Some GENDER_NEUTER], 55);
  ([Some PARTICIPLE_FORM_FULL; Some TIME_PRESENT; Some ANIMALITY_ANIMATE; Some NUMBER_SINGULAR; Some CASE_DATIVE; Some GENDER_FEMININE], 56);
  ([Some PARTICIPLE_FORM_FULL; Some TIME_PRESENT; Some ANIMALITY_ANIMATE; Some NUMBER_SINGULAR; Some CASE_ACCUSATIVE; Some GENDER_MASCULINE], 57);
  ([Some PARTICIPLE_FORM_FULL; Some TIME_PRESENT; Some ANIMALITY_ANIMATE; Some NUMBER_SINGULAR; Some CASE_ACCUSATIVE; Some GENDER_NEUTER], 58);
  ([Some PARTICIPLE_FORM_FULL; Some TIME_PRESENT; Some ANIMALITY_ANIMATE; Some NUMBER_SINGULAR; Some CASE_ACCUSATIVE; Some GENDER_FEMININE], 59);
  ([Some PARTICIPLE_FORM_FULL; Some TIME_PRESENT; Some ANIMALITY_ANIMATE; Some NUMBER_SINGULAR; Some CASE_INSTRUMENTAL; Some GENDER_MASCULINE], 60);
  ([Some PARTICIPLE_FORM_FULL; Some TIME_PRESENT; Some ANIMALITY_ANIMATE; Some NUMBER_SINGULAR; Some CASE_INSTRUMENTAL; Some GENDER_NEUTER], 61);
  ([Some PARTICIPLE_FORM_FULL; Some TIME_PRESENT; Some ANIMALITY_ANIMATE; Some NUMBER_SINGULAR; Some CASE_INSTRUMENTAL; Some GENDER_FEMININE], 62);
  ([Some PARTICIPLE_FORM_FULL; Some TIME_PRESENT; Some ANIMALITY_ANIMATE; Some NUMBER_SINGULAR; Some CASE_PREPOSITIONAL; Some GENDER_MASCULINE], 63);
  ([Some PARTICIPLE_FORM_FULL; Some TIME_PRESENT; Some ANIMALITY_ANIMATE; Some NUMBER_SINGULAR; Some CASE_PREPOSITIONAL; Some GENDER_NEUTER], 64);
  ([Some PARTICIPLE_FORM_FULL; Some TIME_PRESENT; Some ANIMALITY_ANIMATE; Some NUMBER_SINGULAR; Some CASE_PREPOSITIONAL; Some GENDER_FEMININE], 65);
  ([Some PARTICIPLE_FORM_FULL; Some TIME_PRESENT; Some ANIMALITY_ANIMATE; Some NUMBER_PLURAL; Some CASE_NOMINATIVE; None], 66);
  ([Some PARTICIPLE_FORM_FULL; Some TIME_PRESENT; Some ANIMALITY_ANIMATE; Some NUMBER_PLURAL; Some CASE_GENITIVE; None], 67);
  ([Some PARTICIPLE_FORM_FULL; Some TIME_PRESENT; Some ANIMALITY_ANIMATE; Some NUMBER_PLURAL; Some CASE_DATIVE; None], 68);
  ([Some PARTICIPLE_FORM_FULL; Some TIME_PRESENT; Some ANIMALITY_ANIMATE; Some NUMBER_PLURAL; Some CASE_ACCUSATIVE; None], 69);
  ([Some PARTICIPLE_FORM_FULL; Some TIME_PRESENT; Some ANIMALITY_ANIMATE; Some NUMBER_PLURAL; Some CASE_INSTRUMENTAL; None], 70);
  ([Some PARTICIPLE_FORM_FULL; Some TIME_PRESENT; Some ANIMALITY_ANIMATE; Some NUMBER_PLURAL; Some CASE_PREPOSITIONAL; None], 71);
  ([Some PARTICIPLE_FORM_FULL; Some TIME_PRESENT; Some ANIMALITY_INANIMATE; Some NUMBER_SINGULAR; Some CASE_NOMINATIVE; Some GENDER_MASCULINE], 72);
  ([Some PARTICIPLE_FORM_FULL; Some TIME_PRESENT; Some ANIMALITY_INANIMATE; Some NUMBER_SINGULAR; Some CASE_NOMINATIVE; Some GENDER_NEUTER], 73);
  ([Some PARTICIPLE_FORM_FULL; Some TIME_PRESENT; Some ANIMALITY_INANIMATE; Some NUMBER_SINGULAR; Some CASE_NOMINATIVE; Some GENDER_FEMININE], 74);
  ([Some PARTICIPLE_FORM_FULL; Some TIME_PRESENT; Some ANIMALITY_INANIMATE; Some NUMBER_SINGULAR; Some CASE_GENITIVE; Some GENDER_MASCULINE], 75);
  ([Some PARTICIPLE_FORM_FULL; Some TIME_PRESENT; Some ANIMALITY_INANIMATE; Some NUMBER_SINGULAR; Some CASE_GENITIVE; Some GENDER_NEUTER], 76);
  ([Some PARTICIPLE_FORM_FULL; Some TIME_PRESENT; Some ANIMALITY_INANIMATE; Some NUMBER_SINGULAR; Some CASE_GENITIVE; Some GENDER_FEMININE], 77);
  ([Some PARTICIPLE_FORM_FULL; Some TIME_PRESENT; Some ANIMALITY_INANIMATE; Some NUMBER_SINGULAR; Some CASE_DATIVE; Some GENDER_MASCULINE], 78);
  ([Some PARTICIPLE_FORM_FULL; Some TIME_PRESENT; Some ANIMALITY_INANIMATE; Some NUMBER_SINGULAR; Some CASE_DATIVE; Some GENDER_NEUTER], 79);
  ([Some PARTICIPLE_FORM_FULL; Some TIME_PRESENT; Some ANIMALITY_INANIMATE; Some NUMBER_SINGULAR; Some CASE_DATIVE; Some GENDER_FEMININE], 80);
  ([Some PARTICIPLE_FORM_FULL; Some TIME_PRESENT; Some ANIMALITY_INANIMATE; Some NUMBER_SINGULAR; Some CASE_ACCUSATIVE; Some GENDER_MASCULINE], 81);
  ([Some PARTICIPLE_FORM_FULL; Some TIME_PRESENT; Some ANIMALITY_INANIMATE; Some NUMBER_SINGULAR; Some CASE_ACCUSATIVE; Some GENDER_NEUTER], 82);
  ([Some PARTICIPLE_FORM_FULL; Some TIME_PRESENT; Some ANIMALITY_INANIMATE; Some NUMBER_SINGULAR; Some CASE_ACCUSATIVE; Some GENDER_FEMININE], 83);
  ([Some PARTICIPLE_FORM_FULL; Some TIME_PRESENT; Some ANIMALITY_INANIMATE; Some NUMBER_SINGULAR; Some CASE_INSTRUMENTAL; Some GENDER_MASCULINE], 84);
  ([Some PARTICIPLE_FORM_FULL; Some TIME_PRESENT; Some ANIMALITY_INANIMATE; Some NUMBER_SINGULAR; Some CASE_INSTRUMENTAL; Some GENDER_NEUTER], 85);
  ([Some PARTICIPLE_FORM_FULL; Some TIME_PRESENT; Some ANIMALITY_INANIMATE; Some NUMBER_SINGULAR; Some CASE_INSTRUMENTAL; Some GENDER_FEMININE], 86);
  ([Some PARTICIPLE_FORM_FULL; Some TIME_PRESENT; Some ANIMALITY_INANIMATE; Some NUMBER_SINGULAR; Some CASE_PREPOSITIONAL; Some GENDER_MASCULINE], 87);
  ([Some PARTICIPLE_FORM_FULL; Some TIME_PRESENT; Some ANIMALITY_INANIMATE; Some NUMBER_SINGULAR; Some CASE_PREPOSITIONAL; Some GENDER_NEUTER], 88);
  ([Some PARTICIPLE_FORM_FULL; Some TIME_PRESENT; Some ANIMALITY_INANIMATE; Some NUMBER_SINGULAR; Some CASE_PREPOSITIONAL; Some GENDER_FEMININE], 89);
  ([Some PARTICIPLE_FORM_FULL; Some TIME_PRESENT; Some ANIMALITY_INANIMATE; Some NUMBER_PLURAL; Some CASE_NOMINATIVE; None], 90);
  ([Some PARTICIPLE_FORM_FULL; Some TIME_PRESENT; Some ANIMALITY_INANIMATE; Some NUMBER_PLURAL; Some CASE_GENITIVE; None], 91);
  ([Some PARTICIPLE_FORM_FULL; Some TIME_PRESENT; Some ANIMALITY_INANIMATE; Some NUMBER_PLURAL; Some CASE_DATIVE; None], 92);
  ([Some PARTICIPLE_FORM_FULL; Some TIME_PRESENT; Some ANIMALITY_INANIMATE; Some NUMBER_PLURAL; Some CASE_ACCUSATIVE; None], 93);
  ([Some PARTICIPLE_FORM_FULL; Some TIME_PRESENT; Some ANIMALITY_INANIMATE; Some NUMBER_PLURAL; Some CASE_INSTRUMENTAL; None], 94);
  ([Some PARTICIPLE_FORM_FULL; Some TIME_PRESENT; Some ANIMALITY_INANIMATE; Some NUMBER_PLURAL; Some CASE_PREPOSITIONAL; None], 95);
  ([Some PARTICIPLE_FORM_FULL; Some TIME_FUTURE; Some ANIMALITY_ANIMATE; Some NUMBER_SINGULAR; Some CASE_NOMINATIVE; Some GENDER_MASCULINE], 96);
  ([Some PARTICIPLE_FORM_FULL; Some TIME_FUTURE; Some ANIMALITY_ANIMATE; Some NUMBER_SINGULAR; Some CASE_NOMINATIVE; Some GENDER_NEUTER], 97);
  ([Some PARTICIPLE_FORM_FULL; Some TIME_FUTURE; Some ANIMALITY_ANIMATE; Some NUMBER_SINGULAR; Some CASE_NOMINATIVE; Some GENDER_FEMININE], 98);
  ([Some PARTICIPLE_FORM_FULL; Some TIME_FUTURE; Some ANIMALITY_ANIMATE; Some NUMBER_SINGULAR; Some CASE_GENITIVE; Some GENDER_MASCULINE], 99);
  ([Some PARTICIPLE_FORM_FULL; Some TIME_FUTURE; Some ANIMALITY_ANIMATE; Some NUMBER_SINGULAR; Some CASE_GENITIVE; Some GENDER_NEUTER], 100);
  ([Some PARTICIPLE_FORM_FULL; Some TIME_FUTURE; Some ANIMALITY_ANIMATE; Some NUMBER_SINGULAR; Some CASE_GENITIVE; Some GENDER_FEMININE], 101);
  ([Some PARTICIPLE_FORM_FULL; Some TIME_FUTURE; Some ANIMALITY_ANIMATE; Some NUMBER_SINGULAR; Some CASE_DATIVE; Some GENDER_MASCULINE], 102);
  ([Some PARTICIPLE_FORM_FULL; Some TIME_FUTURE; Some ANIMALITY_ANIMATE; Some NUMBER_SINGULAR; Some CASE_DATIVE; Some GENDER_NEUTER], 103);
  ([Some PARTICIPLE_FORM_FULL; Some TIME_FUTURE; Some ANIMALITY_ANIMATE; Some NUMBER_SINGULAR; Some CASE_DATIVE; Some GENDER_FEMININE], 104);
  ([Some PARTICIPLE_FORM_FULL; Some TIME_FUTURE; Some ANIMALITY_ANIMATE; Some NUMBER_SINGULAR; Some CASE_ACCUSATIVE; Some GENDER_MASCULINE], 105);
  ([Some PARTICIPLE_FORM_FULL; Some TIME_FUTURE; Some ANIMALITY_ANIMATE; Some NUMBER_SINGULAR; Some CASE_ACCUSATIVE; Some GENDER_NEUTER], 106);
  ([Some PARTICIPLE_FORM_FULL; Some TIME_FUTURE; Some ANIMALITY_ANIMATE; Some NUMBER_SINGULAR; Some CASE_ACCUSATIVE; Some GENDER_FEMININE], 107);
  ([Some PARTICIPLE_FORM_FULL; Some TIME_FUTURE; Some ANIMALITY_ANIMATE; Some NUMBER_SINGULAR; Some CASE_INSTRUMENTAL; Some GENDER_MASCULINE], 108);
  ([Some PARTICIPLE_FORM_FULL; Some TIME_FUTURE; Some ANIMALITY_ANIMATE; Some NUMBER_SINGULAR; Some CASE_INSTRUMENTAL; Some GENDER_NEUTER], 109);
  ([Some PARTICIPLE_FORM_FULL; Some TIME_FUTURE; Some ANIMALITY_ANIMATE; Some NUMBER_SINGULAR; Some CASE_INSTRUMENTAL; Some GENDER_FEMININE], 110);
  ([Some PARTICIPLE_FORM_FULL; Some TIME_FUTURE; Some ANIMALITY_ANIMATE; Some NUMBER_SINGULAR; Some CASE_PREPOSITIONAL; Some GENDER_MASCULINE], 111);
  ([Some PARTICIPLE_FORM_FULL; Some TIME_FUTURE; Some ANIMALITY_ANIMATE; Some NUMBER_SINGULAR; Some CASE_PREPOSITIONAL; Some GENDER_NEUTER], 112);
  ([Some PARTICIPLE_FORM_FULL; Some TIME_FUTURE; Some ANIMALITY_ANIMATE; Some NUMBER_SINGULAR; Some CASE_PREPOSITIONAL; Some GENDER_FEMININE], 113);
  ([Some PARTICIPLE_FORM_FULL; Some TIME_FUTURE; Some ANIMALITY_ANIMATE; Some NUMBER_PLURAL; Some CASE_NOMINATIVE; None], 114);
  ([Some PARTICIPLE_FORM_FULL; Some TIME_FUTURE; Some ANIMALITY_ANIMATE; Some NUMBER_PLURAL; Some CASE_GENITIVE; None], 115);
  ([Some PARTICIPLE_FORM_FULL; Some TIME_FUTURE; Some ANIMALITY_ANIMATE; Some NUMBER_PLURAL; Some CASE_DATIVE; None], 116);
  ([Some PARTICIPLE_FORM_FULL; Some TIME_FUTURE; Some ANIMALITY_ANIMATE; Some NUMBER_PLURAL; Some CASE_ACCUSATIVE; None], 117);
  ([Some PARTICIPLE_FORM_FULL; Some TIME_FUTURE; Some ANIMALITY_ANIMATE; Some NUMBER_PLURAL; Some CASE_INSTRUMENTAL; None], 118);
  ([Some PARTICIPLE_FORM_FULL; Some TIME_FUTURE; Some ANIMALITY_ANIMATE; Some NUMBER_PLURAL; Some CASE_PREPOSITIONAL; None], 119);
  ([Some PARTICIPLE_FORM_FULL; Some TIME_FUTURE; Some ANIMALITY_INANIMATE; Some NUMBER_SINGULAR; Some CASE_NOMINATIVE; Some GENDER_MASCULINE], 120);
  ([Some PARTICIPLE_FORM_FULL; Some TIME_FUTURE; Some ANIMALITY_INANIMATE; Some NUMBER_SINGULAR; Some CASE_NOMINATIVE; Some GENDER_NEUTER], 121);
  ([Some PARTICIPLE_FORM_FULL; Some TIME_FUTURE; Some ANIMALITY_INANIMATE; Some NUMBER_SINGULAR; Some CASE_NOMINATIVE; Some GENDER_FEMININE], 122);
  ([Some PARTICIPLE_FORM_FULL; Some TIME_FUTURE; Some ANIMALITY_INANIMATE; Some NUMBER_SINGULAR; Some CASE_GENITIVE; Some GENDER_MASCULINE], 123);
  ([Some PARTICIPLE_FORM_FULL; Some TIME_FUTURE; Some ANIMALITY_INANIMATE; Some NUMBER_SINGULAR; Some CASE_GENITIVE; Some GENDER_NEUTER], 124);
  ([Some PARTICIPLE_FORM_FULL; Some TIME_FUTURE; Some ANIMALITY_INANIMATE; Some NUMBER_SINGULAR; Some CASE_GENITIVE; Some GENDER_FEMININE], 125);
  ([Some PARTICIPLE_FORM_FULL; Some TIME_FUTURE; Some ANIMALITY_INANIMATE; Some NUMBER_SINGULAR; Some CASE_DATIVE; Some GENDER_MASCULINE], 126);
  ([Some PARTICIPLE_FORM_FULL; Some TIME_FUTURE; Some ANIMALITY_INANIMATE; Some NUMBER_SINGULAR; Some CASE_DATIVE; Some GENDER_NEUTER], 127);
  ([Some PARTICIPLE_FORM_FULL; Some TIME_FUTURE; Some ANIMALITY_INANIMATE; Some NUMBER_SINGULAR; Some CASE_DATIVE; Some GENDER_FEMININE], 128);
  ([Some PARTICIPLE_FORM_FULL; Some TIME_FUTURE; Some ANIMALITY_INANIMATE; Some NUMBER_SINGULAR; Some CASE_ACCUSATIVE; Some GENDER_MASCULINE], 129);
  ([Some PARTICIPLE_FORM_FULL; Some TIME_FUTURE; Some ANIMALITY_INANIMATE; Some NUMBER_SINGULAR; Some CASE_ACCUSATIVE; Some GENDER_NEUTER], 130);
  ([Some PARTICIPLE_FORM_FULL; Some TIME_FUTURE; Some ANIMALITY_INANIMATE; Some NUMBER_SINGULAR; Some CASE_ACCUSATIVE; Some GENDER_FEMININE], 131);
  ([Some PARTICIPLE_FORM_FULL; Some TIME_FUTURE; Some ANIMALITY_INANIMATE; Some NUMBER_SINGULAR; Some CASE_INSTRUMENTAL; Some GENDER_MASCULINE], 132);
  ([Some PARTICIPLE_FORM_FULL; Some TIME_FUTURE; Some ANIMALITY_INANIMATE; Some NUMBER_SINGULAR; Some CASE_INSTRUMENTAL; Some GENDER_NEUTER], 133);
  ([Some PARTICIPLE_FORM_FULL; Some TIME_FUTURE; Some ANIMALITY_INANIMATE; Some NUMBER_SINGULAR; Some CASE_INSTRUMENTAL; Some GENDER_FEMININE], 134);
  ([Some PARTICIPLE_FORM_FULL; Some TIME_FUTURE; Some ANIMALITY_INANIMATE; Some NUMBER_SINGULAR; Some CASE_PREPOSITIONAL; Some GENDER_MASCULINE], 135);
  ([Some PARTICIPLE_FORM_FULL; Some TIME_FUTURE; Some ANIMALITY_INANIMATE; Some NUMBER_SINGULAR; Some CASE_PREPOSITIONAL; Some GENDER_NEUTER], 136);
  ([Some PARTICIPLE_FORM_FULL; Some TIME_FUTURE; Some ANIMALITY_INANIMATE; Some NUMBER_SINGULAR; Some CASE_PREPOSITIONAL; Some GENDER_FEMININE], 137);
  ([Some PARTICIPLE_FORM_FULL; Some TIME_FUTURE; Some ANIMALITY_INANIMATE; Some NUMBER_PLURAL; Some CASE_NOMINATIVE; None], 138);
  ([Some PARTICIPLE_FORM_FULL; Some TIME_FUTURE; Some ANIMALITY_INANIMATE; Some NUMBER_PLURAL; Some CASE_GENITIVE; None], 139);
  ([Some PARTICIPLE_FORM_FULL; Some TIME_FUTURE; Some ANIMALITY_INANIMATE; Some NUMBER_PLURAL; Some CASE_DATIVE; None], 140);
  ([Some PARTICIPLE_FORM_FULL; Some TIME_FUTURE; Some ANIMALITY_INANIMATE; Some NUMBER_PLURAL; Some CASE_ACCUSATIVE; None], 141);
  ([Some PARTICIPLE_FORM_FULL; Some TIME_FUTURE; Some ANIMALITY_INANIMATE; Some NUMBER_PLURAL; Some CASE_INSTRUMENTAL; None], 142);
  ([Some PARTICIPLE_FORM_FULL; Some TIME_FUTURE; Some ANIMALITY_INANIMATE; Some NUMBER_PLURAL; Some CASE_PREPOSITIONAL; None], 143);
  ([Some PARTICIPLE_FORM_SHORT; None; None; Some NUMBER_SINGULAR; None; Some GENDER_MASCULINE], 144);
  ([Some PARTICIPLE_FORM_SHORT; None; None; Some NUMBER_SINGULAR; None; Some GENDER_NEUTER], 145);
  ([Some PARTICIPLE_FORM_SHORT; None; None; Some NUMBER_SINGULAR; None; Some GENDER_FEMININE], 146);
  ([Some PARTICIPLE_FORM_SHORT; None; None; Some NUMBER_PLURAL; None; None], 147)
].

(** utg/migrations/m_0009_pronoun_modernization.py:681-681 *)
Definition m9_NEW_CACHES_INTEGER : dict key nat := dict_literal [
  ([], 0)
].

(** utg/migrations/m_0009_pronoun_modernization.py:682-682 *)
Definition m9_NEW_CACHES_TEXT : dict key nat := dict_literal [
  ([], 0)
].

(** utg/migrations/m_0009_pronoun_modernization.py:683-685 *)
Definition m9_NEW_CACHES_PREPOSITION : dict key nat := dict_literal [
  ([Some PREPOSITION_FORM_NORMAL], 0);
  ([Some PREPOSITION_FORM_ALTERNATIVE], 1);
  ([Some PREPOSITION_FORM_SPECIAL], 2)
].

(** utg/migrations/m_0009_pronoun_modernization.py:346 *)
Definition m9_NEW_CACHES (t : word_type) : dict key nat :=
  match t with
  | WT_NOUN => m9_NEW_CACHES_NOUN
  | WT_ADJECTIVE => m9_NEW_CACHES_ADJECTIVE
  | WT_PRONOUN => m9_NEW_CACHES_PRONOUN
  | WT_VERB => m9_NEW_CACHES_VERB
  | WT_PARTICIPLE => m9_NEW_CACHES_PARTICIPLE
  | WT_INTEGER => m9_NEW_CACHES_INTEGER
  | WT_TEXT => m9_NEW_CACHES_TEXT
  | WT_PREPOSITION => m9_NEW_CACHES_PREPOSITION
  end.

(** Names of the records of a relation, utg/relations.py:10-126 (the record CONDITIONAL of VERB_FORM is
    commented out there, line 35) *)
Definition record_names (r : relation) : list str :=
  match r with
  | R_CASE => [u "NOMINATIVE"; u "GENITIVE"; u "DATIVE"; u "ACCUSATIVE"; u "INSTRUMENTAL"; u "PREPOSITIONAL"]
  | R_ANIMALITY => [u "ANIMATE"; u "INANIMATE"]
  | R_NUMBER => [u "SINGULAR"; u "PLURAL"]
  | R_GENDER => [u "MASCULINE"; u "NEUTER"; u "FEMININE"]
  | R_VERB_FORM => [u "INFINITIVE"; u "INDICATIVE"; u "IMPERATIVE"]
  | R_VOICE => [u "DIRECT"; u "REVERSE"]
  | R_TIME => [u "PAST"; u "PRESENT"; u "FUTURE"]
  | R_PERSON => [u "FIRST"; u "SECOND"; u "THIRD"]
  | R_ASPECT => [u "IMPERFECTIVE"; u "PERFECTIVE"]
  | R_ADJECTIVE_CATEGORY => [u "QUALITY"; u "RELATIVE"; u "POSSESSIVE"]
  | R_GRADE => [u "POSITIVE"; u "COMPARATIVE"; u "SUPERLATIVE"]
  | R_PRONOUN_CATEGORY => [u "PERSONAL"; u "REFLEXIVE"; u "POSSESSIVE"; u "INTERROGATIVE"; u "RELATIVE"; u "DEMONSTRATIVE"; u "ATTRIBUTIVE"; u "NEGATIVE"; u "VAGUE"; u "MUTUAL"]
  | R_INTEGER_FORM => [u "SINGULAR"; u "DUAL"; u "COMPOSITE_DUAL"; u "PLURAL"; u "MIL_BIL"]
  | R_NOUN_FORM => [u "NORMAL"; u "COUNTABLE"]
  | R_ADJECTIVE_FORM => [u "FULL"; u "SHORT"]
  | R_PARTICIPLE_FORM => [u "FULL"; u "SHORT"]
  | R_WORD_CASE => [u "LOWER"; u "UPPER"]
  | R_DEPENDENCY_MODE => [u "FULL"; u "SEMANTIC"]
  | R_PREPOSITION_FORM => [u "NORMAL"; u "ALTERNATIVE"; u "SPECIAL"]
  | R_WORD_TYPE => [u "NOUN"; u "ADJECTIVE"; u "PRONOUN"; u "VERB"; u "PARTICIPLE"; u "INTEGER"; u "TEXT"; u "PREPOSITION"]
  end.
