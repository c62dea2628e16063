(** * NearestFacts: get_nearest_key (utg/logic.py:87-102) *)
From Coq Require Import Lia.
From Verif Require Import PyBase PyFloat Relations Logic PyBaseFacts SpecSlots FloatFacts FloatRounding.

Lemma similarity_from_nn k : forall i acc a, nn acc -> nn (similarity_from i acc k a).
Proof.
  induction k as [|x k IH]; intros i acc a H; cbn [similarity_from]; [exact H|]. destruct a as [|y a]; [exact H|].
  apply IH. destruct (opt_eqb prop_eqb x y); [|exact H].
  apply f_add_nn; [exact H|]. apply f_add_nn; [apply f_of_Z_nn; lia|]. apply f_mul_0_01_nn, f_of_Z_nn. lia.
Qed.
Lemma similarity_nn k a : nn (similarity k a).
Proof. apply similarity_from_nn. exact I. Qed.

(** [a] is the first of the most similar keys of the list *)
Definition nearest (k : key) (available : list key) (a : key) : Prop :=
  exists l1 l2, available = l1 ++ a :: l2 /\
    (forall b, In b available -> f_gt (similarity k b) (similarity k a) = false) /\
    (forall b, In b l1 -> f_gt (similarity k a) (similarity k b) = true).

Lemma nearest_fold k l : forall pre best,
  (match best with
   | (None, s) => pre = [] /\ s = f_of_Z (-1)
   | (Some a, s) => s = similarity k a /\ nearest k pre a
   end) ->
  match fold_left (nearest_step k) l best with
  | (None, s) => pre ++ l = []
  | (Some a, s) => nearest k (pre ++ l) a
  end.
Proof.
  induction l as [|x l IH]; intros pre best H.
  - simpl. rewrite app_nil_r. destruct best as [[a|] s]; [exact (proj2 H)|exact (proj1 H)].
  - simpl. replace (pre ++ x :: l) with ((pre ++ [x]) ++ l) by (rewrite <- app_assoc; reflexivity). apply IH.
    destruct best as [[a|] s]; unfold nearest_step; cbn [snd].
    + destruct H as [-> (l1 & l2 & Hpre & Hmax & Hfirst)].
      destruct (f_gt (similarity k x) (similarity k a)) eqn:E.
      * split; [reflexivity|]. exists pre, []. split; [reflexivity|]. split.
        -- intros b Hb. apply in_app_iff in Hb as [Hb|[<-|[]]]; [|apply f_gt_irrefl, similarity_nn].
           apply (f_gt_neg_trans _ (similarity k a)); try apply similarity_nn; [apply Hmax, Hb|].
           apply f_gt_asym; [apply similarity_nn|apply similarity_nn|exact E].
        -- intros b Hb. destruct (f_gt (similarity k x) (similarity k b)) eqn:E'; [reflexivity|].
           assert (C : f_gt (similarity k x) (similarity k a) = false).
           { apply (f_gt_neg_trans _ (similarity k b)); try apply similarity_nn; [exact E'|apply Hmax, Hb]. }
           congruence.
      * split; [reflexivity|]. exists l1, (l2 ++ [x]). split; [rewrite Hpre, <- app_assoc; reflexivity|]. split.
        -- intros b Hb. apply in_app_iff in Hb as [Hb|[<-|[]]]; [apply Hmax, Hb|exact E].
        -- exact Hfirst.
    + destruct H as [-> ->]. rewrite f_gt_minus_one by apply similarity_nn. split; [reflexivity|].
      exists [], []. split; [reflexivity|]. split; [|intros b []]. intros b [<-|[]]. apply f_gt_irrefl, similarity_nn.
Qed.
Lemma get_nearest_key_spec k l :
  match get_nearest_key k l with Some a => nearest k l a | None => l = [] end.
Proof.
  assert (H := nearest_fold k l [] (None, f_of_Z (-1)) (conj eq_refl eq_refl)). unfold get_nearest_key.
  destruct (fold_left (nearest_step k) l (None, f_of_Z (-1))) as [[a|] s]; exact H.
Qed.
Lemma get_nearest_key_none k l : get_nearest_key k l = None <-> l = [].
Proof.
  split; [|intros ->; reflexivity]. intros H. assert (G := get_nearest_key_spec k l). rewrite H in G. exact G.
Qed.
Lemma nearest_unique k l a b : nearest k l a -> nearest k l b -> a = b.
Proof.
  intros (l1 & l2 & -> & Ha & Ha1) (m1 & m2 & E & Hb & Hb1).
  assert (Hab : f_gt (similarity k b) (similarity k a) = false) by (apply Ha; rewrite E; apply in_app_iff; right; left; reflexivity).
  assert (Hba : f_gt (similarity k a) (similarity k b) = false) by (apply Hb; apply in_app_iff; right; left; reflexivity).
  assert (G : forall l1 l2 m1 m2 : list key, l1 ++ a :: l2 = m1 ++ b :: m2 -> a = b \/ In a m1 \/ In b l1).
  { clear. induction l1 as [|x l1 IH]; intros l2 m1 m2 E; destruct m1 as [|y m1]; simpl in E.
    - left. congruence.
    - injection E as -> _. right. left. left. reflexivity.
    - injection E as -> _. right. right. left. reflexivity.
    - injection E as -> E. destruct (IH _ _ _ E) as [H|[H|H]]; simpl; auto. }
  destruct (G _ _ _ _ E) as [H|[H|H]]; [exact H| |].
  - apply Hb1 in H. congruence.
  - apply Ha1 in H. congruence.
Qed.
Lemma get_nearest_key_iff k l a : get_nearest_key k l = Some a <-> nearest k l a.
Proof.
  assert (G := get_nearest_key_spec k l). destruct (get_nearest_key k l) as [b|].
  - split; [intros [= <-]; exact G|]. intros H. f_equal. exact (nearest_unique k l b a G H).
  - split; [discriminate|]. intros (l1 & l2 & E & _). subst. destruct l1; discriminate.
Qed.
Lemma nearest_in k l a : nearest k l a -> In a l.
Proof. intros (l1 & l2 & -> & _). apply in_app_iff. right; left; reflexivity. Qed.

(** ** similarity through the mask of matching positions *)
Fixpoint mask (k a : key) : list bool :=
  match k, a with
  | x :: k', y :: a' => opt_eqb prop_eqb x y :: mask k' a'
  | _, _ => []
  end.
Fixpoint fmask (i : nat) (acc : spec_float) (m : list bool) : spec_float :=
  match m with
  | [] => acc
  | b :: m' => fmask (S i) (if b then f_add acc (f_add (f_of_Z 1) (f_mul f_0_01 (f_of_Z (Z.of_nat i)))) else acc) m'
  end.
Fixpoint positions (i : nat) (m : list bool) : list nat :=
  match m with [] => [] | b :: m' => (if b then [i] else []) ++ positions (S i) m' end.
Lemma similarity_mask k : forall i acc a, similarity_from i acc k a = fmask i acc (mask k a).
Proof. induction k as [|x k IH]; intros i acc [|y a]; cbn [similarity_from mask fmask]; try reflexivity. apply IH. Qed.
Lemma matching_mask k : forall i a, matching i k a = positions i (mask k a).
Proof. induction k as [|x k IH]; intros i [|y a]; simpl; try reflexivity. rewrite IH. reflexivity. Qed.
Lemma mask_length k : forall a, length (mask k a) <= length k.
Proof. induction k as [|x k IH]; intros [|y a]; simpl; try lia. specialize (IH a). lia. Qed.
Lemma fmask_pad n : forall i acc, fmask i acc (repeat false n) = acc.
Proof. induction n as [|n IH]; intros; cbn [repeat fmask]; auto. Qed.
Lemma fmask_app m : forall i acc n, fmask i acc (m ++ repeat false n) = fmask i acc m.
Proof. induction m as [|b m IH]; intros; cbn [app fmask]; [apply fmask_pad|apply IH]. Qed.
Lemma positions_pad n : forall i, positions i (repeat false n) = [].
Proof. induction n as [|n IH]; intros; simpl; auto. Qed.
Lemma positions_app m : forall i n, positions i (m ++ repeat false n) = positions i m.
Proof. induction m as [|b m IH]; intros; simpl; [apply positions_pad|rewrite IH; reflexivity]. Qed.

Fixpoint all_masks (n : nat) : list (list bool) :=
  match n with O => [[]] | S n' => map (cons false) (all_masks n') ++ map (cons true) (all_masks n') end.
Lemma in_all_masks m : In m (all_masks (length m)).
Proof.
  induction m as [|b m IH]; simpl; [auto|]. apply in_app_iff. destruct b; [right|left]; apply in_map; exact IH.
Qed.
Definition mask_row (m : list bool) : list nat * spec_float := (positions 0 m, fmask 0 (f_of_Z 0) m).
Definition sweep (n : nat) (P : list nat * spec_float -> list nat * spec_float -> bool) : bool :=
  let rows := map mask_row (all_masks n) in forallb (fun r1 => forallb (P r1) rows) rows.
Definition pad (n : nat) (m : list bool) : list bool := m ++ repeat false (n - length m).
Lemma pad_in n m : length m <= n -> In (pad n m) (all_masks n).
Proof.
  intros H. replace n with (length (pad n m)) at 2; [apply in_all_masks|].
  unfold pad. rewrite app_length, repeat_length. lia.
Qed.
Lemma sweep_use n (P : list nat * spec_float -> list nat * spec_float -> bool) :
  sweep n P = true ->
  forall k1 a1 k2 a2, length k1 <= n -> length k2 <= n ->
  P (matching 0 k1 a1, similarity k1 a1) (matching 0 k2 a2, similarity k2 a2) = true.
Proof.
  intros H k1 a1 k2 a2 H1 H2. unfold sweep in H. cbv zeta in H. rewrite forallb_forall in H.
  assert (G : forall k a, length k <= n -> In (matching 0 k a, similarity k a) (map mask_row (all_masks n))).
  { intros k a Hk. apply in_map_iff. exists (pad n (mask k a)). split.
    - unfold mask_row, pad. rewrite positions_app, fmask_app. rewrite <- matching_mask, <- similarity_mask. reflexivity.
    - apply pad_in. pose proof (mask_length k a). lia. }
  specialize (H _ (G k1 a1 H1)). rewrite forallb_forall in H. apply H, G, H2.
Qed.
Definition ties_equal (r1 r2 : list nat * spec_float) : bool :=
  implb (Nat.eqb (length (fst r1)) (length (fst r2)) && Nat.eqb (list_sum (fst r1)) (list_sum (fst r2))) (negb (f_gt (snd r1) (snd r2))).
(** ** the float similarity against the exact one, 100 * count + sum hundredths (FloatRounding) *)
Lemma fmask_tracks m : forall i acc n S, i + length m <= 1000 -> (0 <= n <= Z.of_nat i)%Z -> (100 * n <= S <= 1100 * n)%Z -> tracks acc n S ->
  tracks (fmask i acc m) (n + Z.of_nat (length (positions i m))) (S + 100 * Z.of_nat (length (positions i m)) + Z.of_nat (list_sum (positions i m))).
Proof.
  induction m as [|b m IH]; intros i acc n S Hi Hn HS T.
  - cbn [fmask positions length list_sum fold_right]. rewrite Z.mul_0_r, !Z.add_0_r. exact T.
  - cbn [length] in Hi. cbn [fmask positions]. destruct b; cbn [app].
    + assert (T' := tracks_step acc n S (Z.of_nat i) ltac:(lia) ltac:(lia) HS T). unfold weight_of in T'.
      specialize (IH (Datatypes.S i) _ (n + 1)%Z (S + 100 + Z.of_nat i)%Z ltac:(lia) ltac:(lia) ltac:(lia) T'). cbn [length]. change (list_sum (i :: positions (Datatypes.S i) m)) with (i + list_sum (positions (Datatypes.S i) m)).
      replace (n + Z.of_nat (Datatypes.S (length (positions (Datatypes.S i) m))))%Z with (n + 1 + Z.of_nat (length (positions (Datatypes.S i) m)))%Z by lia.
      replace (S + 100 * Z.of_nat (Datatypes.S (length (positions (Datatypes.S i) m))) + Z.of_nat (i + list_sum (positions (Datatypes.S i) m)))%Z
        with (S + 100 + Z.of_nat i + 100 * Z.of_nat (length (positions (Datatypes.S i) m)) + Z.of_nat (list_sum (positions (Datatypes.S i) m)))%Z by lia. exact IH.
    + apply IH; [lia|lia|exact HS|exact T].
Qed.
Lemma matching_le k : forall i a, length (matching i k a) <= length k.
Proof.
  induction k as [|x k IH]; intros i [|y a]; simpl; try lia. specialize (IH (S i) a). destruct (opt_eqb prop_eqb x y); simpl; lia.
Qed.
Lemma similarity_exact k a b : length k <= 1000 -> 100 * match_count k b + match_sum k b < 100 * match_count k a + match_sum k a ->
  f_gt (similarity k a) (similarity k b) = true.
Proof.
  intros Hk H. assert (G : forall c, tracks (similarity k c) (Z.of_nat (match_count k c)) (Z.of_nat (100 * match_count k c + match_sum k c))).
  { intro c. assert (T := fmask_tracks (mask k c) 0 (f_of_Z 0) 0 0). rewrite <- similarity_mask, <- matching_mask in T. pose proof (mask_length k c). specialize (T ltac:(lia) ltac:(lia) ltac:(lia)).
    unfold match_count, match_sum, similarity. replace (Z.of_nat (100 * length (matching 0 k c) + list_sum (matching 0 k c))) with (0 + 100 * Z.of_nat (length (matching 0 k c)) + Z.of_nat (list_sum (matching 0 k c)))%Z by lia. apply T. left. auto. }
  assert (L := fun c => matching_le k 0 c). refine (tracks_gt _ _ _ _ _ _ _ _ (G a) (G b) _); unfold match_count in *; [specialize (L a)|specialize (L b)|]; lia.
Qed.
(** the sum of c different positions below n *)
Lemma positions_sum m : forall i, let c := length (positions i m) in
  2 * list_sum (positions i m) >= c * (2 * i) + c * c - c /\ 2 * list_sum (positions i m) + c * c + c <= c * (2 * (i + length m)) /\ c <= length m.
Proof.
  induction m as [|b m IH]; intros i; cbn [positions].
  - simpl. lia.
  - specialize (IH (S i)). cbv zeta in *. destruct b; cbn [app length].
    + change (list_sum (i :: positions (S i) m)) with (i + list_sum (positions (S i) m)). set (c := length (positions (S i) m)) in *. set (s := list_sum (positions (S i) m)) in *. destruct IH as (H1 & H2 & H3). split; [|split]; nia.
    + destruct IH as (H1 & H2 & H3). split; [|split]; nia.
Qed.
Lemma match_sum_bounds k a : let c := match_count k a in c * (c - 1) <= 2 * match_sum k a /\ 2 * match_sum k a + c * c + c <= c * (2 * length k) /\ c <= length k.
Proof.
  unfold match_count, match_sum. rewrite matching_mask. assert (H := positions_sum (mask k a) 0). assert (L := mask_length k a). cbv zeta in *. set (c := length (positions 0 (mask k a))) in *. destruct H as (H1 & H2 & H3). split; [|split]; nia.
Qed.
(** up to 20 positions, one more match outweighs the positions of the others *)
Lemma similarity_priority k a b : length k <= 20 ->
  match_count k b < match_count k a \/ (match_count k a = match_count k b /\ match_sum k b < match_sum k a) ->
  f_gt (similarity k a) (similarity k b) = true.
Proof.
  intros Hk H. apply similarity_exact; [lia|]. destruct H as [H|[H H']]; [|lia].
  destruct (match_sum_bounds k a) as (A1 & A2 & A3). destruct (match_sum_bounds k b) as (B1 & B2 & B3). set (m := match_count k a) in *. set (n := match_count k b) in *.
  assert (X : n * 19 <= 90 + n * n). { assert (L : n <= 19) by lia. clearbody n. clear - L. do 20 (destruct n as [|n]; [lia|]). lia. }
  assert (Y : n * n + n <= m * (m - 1)) by nia. assert (Z : n * (2 * length k) <= n * 40) by (apply Nat.mul_le_mono_l; lia).
  clear A2 A3 B1 B3. generalize dependent (m * (m - 1)). generalize dependent (n * (2 * length k)). generalize dependent (n * n). intros. lia.
Qed.
(** exact ties are float ties up to 4 elements *)
Lemma tie_sweep_4 : sweep 4 ties_equal = true.
Proof. vm_compute. reflexivity. Qed.
Lemma similarity_tie k a b : length k <= 4 -> match_count k a = match_count k b -> match_sum k a = match_sum k b ->
  f_gt (similarity k a) (similarity k b) = false.
Proof.
  intros Hk H1 H2. assert (G := sweep_use 4 ties_equal tie_sweep_4 k a k b Hk Hk). unfold ties_equal in G. cbn [fst snd] in G.
  unfold match_count, match_sum in *. rewrite H1, H2, !Nat.eqb_refl in G. simpl in G. apply negb_true_iff, G.
Qed.

Lemma matching_self k : forall i, matching i k k = seq i (length k).
Proof.
  induction k as [|x k IH]; intros i; simpl; [reflexivity|]. rewrite (eqb_ok_refl _ (opt_eqb_ok _ prop_eqb_ok)), IH. reflexivity.
Qed.
Lemma matching_full k : forall i a, length a = length k -> length (matching i k a) = length k -> a = k.
Proof.
  induction k as [|x k IH]; intros i [|y a]; simpl; try discriminate; [reflexivity|]. intros [= Hl] H.
  assert (G := matching_le k (S i) a). destruct (opt_eqb prop_eqb x y) eqn:E; simpl in H; [|lia].
  apply (opt_eqb_ok _ prop_eqb_ok) in E. subst. f_equal. apply (IH (S i)); [exact Hl|lia].
Qed.
Lemma nearest_self k l : length k <= 1000 -> (forall a, In a l -> length a = length k) -> In k l -> get_nearest_key k l = Some k.
Proof.
  intros Hk Hl Hin. apply get_nearest_key_iff.
  assert (Hgt : forall b, In b l -> b <> k -> f_gt (similarity k k) (similarity k b) = true).
  { intros b Hb Hn. apply similarity_exact; [exact Hk|]. assert (M : match_count k b < match_count k k); [|destruct (match_sum_bounds k b) as (B1 & B2 & B3); assert (SK : 2 * match_sum k k + length k = length k * length k)].
    2: { destruct (match_sum_bounds k k) as (A1 & A2 & A3). replace (match_count k k) with (length k) in A1, A2 by (unfold match_count; rewrite matching_self, seq_length; reflexivity). nia. }
    2: { replace (match_count k k) with (length k) in * by (unfold match_count; rewrite matching_self, seq_length; reflexivity). nia. }
    unfold match_count. rewrite matching_self, seq_length.
    pose proof (matching_le k 0 b). destruct (Nat.eq_dec (length (matching 0 k b)) (length k)) as [E|E]; [|lia].
    exfalso. apply Hn. apply (matching_full k 0); [apply Hl, Hb|exact E]. }
  assert (Hs : exists l1 l2, l = l1 ++ k :: l2 /\ ~ In k l1).
  { clear Hl Hgt. induction l as [|x l IH]; [destruct Hin|]. destruct (eqb_ok_dec _ key_eqb_ok x k) as [->|Hn].
    - exists [], l. auto.
    - destruct Hin as [->|Hin]; [contradiction|]. destruct (IH Hin) as (l1 & l2 & -> & Hni). exists (x :: l1), l2.
      split; [reflexivity|]. intros [H|H]; contradiction. }
  destruct Hs as (l1 & l2 & -> & Hni). exists l1, l2. split; [reflexivity|]. split.
  - intros b Hb. destruct (eqb_ok_dec _ key_eqb_ok b k) as [->|Hn]; [apply f_gt_irrefl, similarity_nn|].
    apply f_gt_asym; [apply similarity_nn|apply similarity_nn|]. apply Hgt; assumption.
  - intros b Hb. apply Hgt; [apply in_app_iff; left; exact Hb|]. intros ->. contradiction.
Qed.
