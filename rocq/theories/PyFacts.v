(** Lemmas about Python indexing and slicing ([PyBase]). *)
From Coq Require Import ZArith List Bool Lia.
From Verif Require Import PyBase ArrFacts.
Import ListNotations.

Lemma pyidx_nat n k : (k < n)%nat -> pyidx n (Z.of_nat k) = Some k.
Proof.
  intros H. unfold pyidx.
  destruct (Z.of_nat k <? 0)%Z eqn:E; [lia|].
  replace ((0 <=? Z.of_nat k) && (Z.of_nat k <? Z.of_nat n))%Z with true by lia.
  rewrite Nat2Z.id. reflexivity.
Qed.

Lemma pyidx_none n k : (Z.of_nat n <= k)%Z -> pyidx n k = None.
Proof.
  intros H. unfold pyidx. destruct (k <? 0)%Z eqn:E; [lia|].
  replace (k <? Z.of_nat n)%Z with false by lia. rewrite andb_false_r. reflexivity.
Qed.

Lemma pyget_nat {A} (l : list A) k d : (k < length l)%nat -> pyget l (Z.of_nat k) = Ok (nth k l d).
Proof.
  intros H. unfold pyget. rewrite pyidx_nat by auto.
  unfold oget. rewrite (nth_error_nth' l d) by auto. reflexivity.
Qed.

Lemma pyget_Z {A} (l : list A) z d : (0 <= z < Z.of_nat (length l))%Z ->
  pyget l z = Ok (nth (Z.to_nat z) l d).
Proof.
  intros H. rewrite <- (Z2Nat.id z) at 1 by lia. apply pyget_nat. lia.
Qed.

Lemma pyget_neg {A} (l : list A) z d : (- Z.of_nat (length l) <= z < 0)%Z ->
  pyget l z = Ok (nth (Z.to_nat (z + Z.of_nat (length l))) l d).
Proof.
  intros H. unfold pyget, pyidx. replace (z <? 0)%Z with true by lia.
  replace ((0 <=? z + Z.of_nat (length l)) && (z + Z.of_nat (length l) <? Z.of_nat (length l)))%Z
    with true by lia.
  unfold oget. rewrite (nth_error_nth' l d) by lia. reflexivity.
Qed.

Lemma pyget_oob {A} (l : list A) z : (Z.of_nat (length l) <= z)%Z -> pyget l z = Err IndexError.
Proof. intros H. unfold pyget. rewrite pyidx_none by auto. reflexivity. Qed.

Lemma pyset_Z {A} (l : list A) z v : (0 <= z < Z.of_nat (length l))%Z ->
  pyset l z v = Ok (upd l (Z.to_nat z) v).
Proof.
  intros H. unfold pyset. rewrite <- (Z2Nat.id z) at 1 by lia.
  rewrite pyidx_nat by lia. reflexivity.
Qed.

Lemma slice_bound_nat n z : (0 <= z <= Z.of_nat n)%Z -> slice_bound n z = Z.to_nat z.
Proof. intros H. unfold slice_bound. destruct (z <? 0)%Z eqn:E; lia. Qed.

(** [l[a:b]] for plain in-range bounds *)
Lemma pyslice_Z {A} (l : list A) a b : (0 <= a)%Z -> (0 <= b <= Z.of_nat (length l))%Z ->
  (a <= Z.of_nat (length l))%Z ->
  pyslice l (Some a) (Some b) = firstn (Z.to_nat b - Z.to_nat a) (skipn (Z.to_nat a) l).
Proof.
  intros. unfold pyslice, slice_lo, slice_hi. rewrite !slice_bound_nat by lia. reflexivity.
Qed.

Lemma nth_firstn {A} (l : list A) n k d : (k < n)%nat -> nth k (firstn n l) d = nth k l d.
Proof.
  revert n k; induction l as [|x l IH]; intros [|n] [|k] H; simpl; auto; try lia.
  apply IH. lia.
Qed.
Lemma nth_skipn {A} (l : list A) n k d : nth k (skipn n l) d = nth (n + k) l d.
Proof.
  revert n; induction l as [|x l IH]; intros [|n]; simpl; auto.
  destruct k; reflexivity.
Qed.

Lemma pysetslice_ok {A} (l : list A) a b vs :
  (0 <= a <= Z.of_nat (length l))%Z -> (0 <= b <= Z.of_nat (length l))%Z ->
  length vs = (Z.to_nat b - Z.to_nat a)%nat ->
  pysetslice l (Some a) (Some b) vs =
  Ok (firstn (Z.to_nat a) l ++ vs ++ skipn (Z.to_nat a + (Z.to_nat b - Z.to_nat a)) l).
Proof.
  intros Ha Hb Hl. unfold pysetslice, slice_lo, slice_hi. rewrite !slice_bound_nat by lia.
  rewrite Hl, Nat.eqb_refl. reflexivity.
Qed.

Lemma nth_splice {A} (l vs : list A) a m k d :
  (a + m <= length l)%nat -> length vs = m ->
  nth k (firstn a l ++ vs ++ skipn (a + m) l) d =
  if (a <=? k) && (k <? a + m) then nth (k - a) vs d else nth k l d.
Proof.
  intros Ha Hm.
  assert (Hf : length (firstn a l) = a) by (rewrite firstn_length; lia).
  destruct (a <=? k) eqn:E1; simpl.
  - apply Nat.leb_le in E1. rewrite app_nth2 by lia. rewrite Hf.
    destruct (k <? a + m) eqn:E2.
    + apply Nat.ltb_lt in E2. rewrite app_nth1 by lia. reflexivity.
    + apply Nat.ltb_ge in E2. rewrite app_nth2 by lia. rewrite nth_skipn. f_equal. lia.
  - apply Nat.leb_gt in E1. rewrite app_nth1 by lia. apply nth_firstn. auto.
Qed.
Lemma splice_length {A} (l vs : list A) a m :
  (a + m <= length l)%nat -> length vs = m ->
  length (firstn a l ++ vs ++ skipn (a + m) l) = length l.
Proof. intros. rewrite !app_length, firstn_length, skipn_length. lia. Qed.
