(** * IntFacts: decimal notation of integers (str(int), int(str)) *)
From Coq Require Import Lia Decimal DecimalFacts DecimalN.
From Verif Require Import PyBase Relations Words Constructors.

(** the plain texts: an optional sign and ASCII digits (a helper; the library's int() is Words.int_of_text) *)
Definition digit_val (c : char) : option Z :=
  if (N.leb 48 c && N.leb c 57)%bool then Some (Z.of_N c - 48)%Z else None.
Fixpoint parse_digits (acc : Z) (s : str) : option Z :=
  match s with
  | [] => Some acc
  | c :: s' => match digit_val c with
               | Some d => parse_digits (acc * 10 + d)%Z s'
               | None => None
               end
  end.
Definition parse_nat (s : str) : option Z :=
  match s with [] => None | _ :: _ => parse_digits 0 s end.
Definition parse_int (s : str) : option Z :=
  match s with
  | [] => None
  | c :: s' => if N.eqb c 45 then option_map Z.opp (parse_nat s')
               else if N.eqb c 43 then parse_nat s'
               else parse_nat s
  end.

Lemma parse_digits_acc d (acc : positive) :
  parse_digits (Zpos acc) (uint_str d) = Some (Zpos (Pos.of_uint_acc d acc)).
Proof.
  revert acc. induction d as [|d IH|d IH|d IH|d IH|d IH|d IH|d IH|d IH|d IH|d IH]; intros acc;
    cbn [uint_str parse_digits]; [reflexivity|..];
    match goal with |- context [digit_val ?c] => let v := eval vm_compute in (digit_val c) in change (digit_val c) with v end;
    cbv iota beta; cbn [Pos.of_uint_acc]; rewrite <- IH; f_equal; lia.
Qed.
Lemma parse_digits_uint d : parse_digits 0 (uint_str d) = Some (Z.of_N (N.of_uint d)).
Proof.
  unfold N.of_uint. induction d as [|d IH|d IH|d IH|d IH|d IH|d IH|d IH|d IH|d IH|d IH];
    cbn [uint_str parse_digits]; [reflexivity|..];
    match goal with |- context [digit_val ?c] => let v := eval vm_compute in (digit_val c) in change (digit_val c) with v end;
    cbv iota beta; cbn [Pos.of_uint Z.of_N].
  1: exact IH.
  all: match goal with |- parse_digits ?a _ = _ => let v := eval vm_compute in a in change a with v end; apply parse_digits_acc.
Qed.

Lemma to_uint_nonnil n : N.to_uint n <> Nil.
Proof.
  destruct n as [|p]; [discriminate|]. apply DecimalPos.Unsigned.to_uint_nonnil.
Qed.
Lemma uint_str_digits d : Forall (fun c => (48 <= c <= 57)%N) (uint_str d).
Proof. induction d; simpl; constructor; try assumption; lia. Qed.

Lemma parse_nat_uint n : parse_nat (uint_str (N.to_uint n)) = Some (Z.of_N n).
Proof.
  unfold parse_nat. destruct (uint_str (N.to_uint n)) eqn:E.
  - exfalso. apply (to_uint_nonnil n). destruct (N.to_uint n); try discriminate E. reflexivity.
  - rewrite <- E, parse_digits_uint, Unsigned.of_to. reflexivity.
Qed.

Lemma parse_int_str_of_Z z : parse_int (str_of_Z z) = Some z.
Proof.
  unfold str_of_Z. destruct (Z.ltb_spec z 0) as [Hz|Hz].
  - cbn [app parse_int]. change (N.eqb 45 45) with true. cbv iota. rewrite parse_nat_uint. simpl. f_equal. lia.
  - cbn [app]. assert (P := parse_nat_uint (Z.abs_N z)). assert (D := uint_str_digits (N.to_uint (Z.abs_N z))).
    destruct (uint_str (N.to_uint (Z.abs_N z))) as [|c s]; [discriminate P|].
    unfold parse_int. inversion D; subst.
    destruct (N.eqb_spec c 45); [lia|]. destruct (N.eqb_spec c 43); [lia|]. rewrite P. f_equal. lia.
Qed.

(** canonical: no leading zero unless the number is 0, no minus zero *)
Lemma to_uint_unorm n : unorm (N.to_uint n) = N.to_uint n.
Proof. assert (E := Unsigned.to_of (N.to_uint n)). rewrite Unsigned.of_to in E. symmetry. exact E. Qed.
Lemma str_of_Z_canonical z :
  exists c s, str_of_Z z = (if Z.ltb z 0 then [45%N] else []) ++ c :: s /\
    Forall (fun x => (48 <= x <= 57)%N) (c :: s) /\ (c = 48%N -> s = [] /\ z = 0%Z).
Proof.
  unfold str_of_Z. set (d := N.to_uint (Z.abs_N z)).
  assert (D := uint_str_digits d). assert (Hn := to_uint_nonnil (Z.abs_N z)). fold d in Hn.
  assert (U := to_uint_unorm (Z.abs_N z)). fold d in U.
  destruct (uint_str d) as [|c s] eqn:E; [exfalso; apply Hn; destruct d; try discriminate E; reflexivity|].
  exists c, s. split; [reflexivity|]. split; [exact D|]. intros ->.
  assert (Hd : d = D0 Nil).
  { destruct d as [|d|d|d|d|d|d|d|d|d|d]; simpl in E; try discriminate E.
    unfold unorm in U. simpl in U. fold (nzhead d) in U.
    destruct (nzhead d) eqn:Eh; try discriminate U.
    - symmetry. exact U.
    - exfalso. exact (nzhead_nonzero _ _ Eh). }
  rewrite Hd in E. simpl in E. injection E as <-. split; [reflexivity|].
  assert (Hz := Unsigned.of_to (Z.abs_N z)). fold d in Hz. rewrite Hd in Hz. simpl in Hz. lia.
Qed.
Lemma str_of_Z_inj a b : str_of_Z a = str_of_Z b -> a = b.
Proof. intros H. assert (E := parse_int_str_of_Z a). rewrite H, parse_int_str_of_Z in E. congruence. Qed.
