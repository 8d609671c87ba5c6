(** Facts about finite sums. *)
From Coq Require Import Reals List Arith Lia Lra.
From Verif Require Import PyBase Num Arr NumFacts ArrFacts SpecSum.
Import ListNotations.
Local Open Scope R_scope.

Lemma bigsum_ext n f g : (forall i, (i < n)%nat -> f i = g i) -> bigsum n f = bigsum n g.
Proof. induction n as [|n IH]; intros H; cbn; auto. rewrite IH by (intros; apply H; lia). rewrite H by lia. reflexivity. Qed.
Lemma bigsum_0 n f : (forall i, (i < n)%nat -> f i = 0) -> bigsum n f = 0.
Proof. induction n as [|n IH]; intros H; cbn; auto. rewrite IH by (intros; apply H; lia). rewrite H by lia. lra. Qed.
Lemma bigsum_plus n f g : bigsum n (fun i => f i + g i) = bigsum n f + bigsum n g.
Proof. induction n as [|n IH]; cbn; [lra|]. rewrite IH. lra. Qed.
Lemma bigsum_minus n f g : bigsum n (fun i => f i - g i) = bigsum n f - bigsum n g.
Proof. induction n as [|n IH]; cbn; [lra|]. rewrite IH. lra. Qed.
Lemma bigsum_scal n c f : bigsum n (fun i => c * f i) = c * bigsum n f.
Proof. induction n as [|n IH]; cbn; [lra|]. rewrite IH. lra. Qed.
Lemma bigsum_scal_r n c f : bigsum n (fun i => f i * c) = bigsum n f * c.
Proof. induction n as [|n IH]; cbn; [lra|]. rewrite IH. lra. Qed.
Lemma bigsum_const n c : bigsum n (fun _ => c) = INR n * c.
Proof. induction n as [|n IH]; [cbn; lra|]. rewrite S_INR. cbn [bigsum]. rewrite IH. lra. Qed.
Lemma bigsum_swap n m (f : nat -> nat -> R) :
  bigsum n (fun i => bigsum m (fun j => f i j)) = bigsum m (fun j => bigsum n (fun i => f i j)).
Proof.
  induction n as [|n IH]; cbn.
  - symmetry. apply bigsum_0. reflexivity.
  - rewrite IH, bigsum_plus. reflexivity.
Qed.
Lemma bigsum_single n k f : (k < n)%nat -> (forall i, (i < n)%nat -> i <> k -> f i = 0) -> bigsum n f = f k.
Proof.
  induction n as [|n IH]; intros Hk H; [lia|]. cbn. destruct (Nat.eq_dec k n) as [->|].
  - rewrite bigsum_0; [lra|]. intros. apply H; lia.
  - rewrite IH by (try lia; intros; apply H; lia). rewrite (H n) by lia. lra.
Qed.
Lemma bigsum_app n m f : bigsum (n + m) f = bigsum n f + bigsum m (fun i => f (n + i)%nat).
Proof.
  induction m as [|m IH]; [rewrite Nat.add_0_r; cbn; lra|].
  rewrite Nat.add_succ_r. cbn. rewrite IH. lra.
Qed.
Lemma bigsum_shift n f : bigsum (S n) f = f 0%nat + bigsum n (fun i => f (S i)).
Proof. change (S n) with (1 + n)%nat. rewrite bigsum_app. cbn. lra. Qed.
Lemma bigsum_rev n f : bigsum n f = bigsum n (fun i => f (n - 1 - i)%nat).
Proof.
  induction n as [|n IH]; auto. rewrite (bigsum_shift n (fun i => f (S n - 1 - i)%nat)). cbn [bigsum].
  rewrite IH. replace (S n - 1 - 0)%nat with n by lia. rewrite Rplus_comm. f_equal.
  apply bigsum_ext. intros i Hi. f_equal. lia.
Qed.
Lemma bigsum_nonneg n f : (forall i, (i < n)%nat -> 0 <= f i) -> 0 <= bigsum n f.
Proof. induction n as [|n IH]; intros H; cbn; [lra|]. assert (0 <= f n) by (apply H; lia). assert (0 <= bigsum n f) by (apply IH; intros; apply H; lia). lra. Qed.
Lemma bigsum_le n f g : (forall i, (i < n)%nat -> f i <= g i) -> bigsum n f <= bigsum n g.
Proof. induction n as [|n IH]; intros H; cbn; [lra|]. assert (f n <= g n) by (apply H; lia). assert (bigsum n f <= bigsum n g) by (apply IH; intros; apply H; lia). lra. Qed.
Lemma bigsum_pos n f : (0 < n)%nat -> (forall i, (i < n)%nat -> 0 < f i) -> 0 < bigsum n f.
Proof.
  intros Hn H. destruct n as [|n]; [lia|]. cbn.
  assert (0 <= bigsum n f) by (apply bigsum_nonneg; intros; left; apply H; lia).
  assert (0 < f n) by (apply H; lia). lra.
Qed.
Lemma bigsum_zero_inv n f : (forall i, (i < n)%nat -> 0 <= f i) -> bigsum n f = 0 -> forall i, (i < n)%nat -> f i = 0.
Proof.
  induction n as [|n IH]; intros H H0 i Hi; [lia|]. cbn in H0.
  assert (0 <= bigsum n f) by (apply bigsum_nonneg; intros; apply H; lia).
  assert (0 <= f n) by (apply H; lia).
  destruct (Nat.eq_dec i n) as [->|]; [lra|]. apply IH; try lia; try lra. intros; apply H; lia.
Qed.

Lemma rsum_seq a n f : rsum (map f (seq a n)) = bigsum n (fun i => f (a + i)%nat).
Proof.
  revert a; induction n as [|n IH]; intros a; [reflexivity|]. rewrite bigsum_shift. cbn [seq map rsum].
  rewrite IH, Nat.add_0_r. f_equal. apply bigsum_ext. intros. f_equal. lia.
Qed.
Lemma rsum_seq0 n f : rsum (map f (seq 0 n)) = bigsum n f.
Proof. rewrite rsum_seq. apply bigsum_ext. reflexivity. Qed.
Lemma rsum_nth l : rsum l = bigsum (List.length l) (fun i => nth i l 0).
Proof. rewrite <- (rsum_seq0 (List.length l) (fun i => nth i l 0)). f_equal. induction l as [|x l IH]; auto. cbn. f_equal. rewrite <- seq_shift, map_map. apply IH. Qed.
Lemma rsum_flat_map {A} (g : A -> list R) l : rsum (flat_map g l) = rsum (map (fun x => rsum (g x)) l).
Proof. induction l as [|x l IH]; cbn; auto. rewrite rsum_app, IH. reflexivity. Qed.
Lemma map_flat_map {A B C} (g : B -> C) (f : A -> list B) l : map g (flat_map f l) = flat_map (fun x => map g (f x)) l.
Proof. induction l as [|x l IH]; cbn; auto. rewrite map_app, IH. reflexivity. Qed.
Lemma rsum_all_idx2 a b (g : list nat -> R) : rsum (map g (all_idx [a; b])) = gridsum a b (fun i j => g [i; j]).
Proof.
  unfold gridsum. cbn [all_idx]. rewrite map_flat_map, rsum_flat_map, rsum_seq0. apply bigsum_ext. intros i _.
  rewrite map_map, map_flat_map, rsum_flat_map. rewrite <- rsum_seq0. f_equal. apply map_ext. intros j. cbn. lra.
Qed.
Lemma rsum_plus {A} (f g : A -> R) l : rsum (map (fun x => f x + g x) l) = rsum (map f l) + rsum (map g l).
Proof. induction l as [|x l IH]; cbn; [lra|]. rewrite IH. lra. Qed.
Lemma rsum_scal {A} (f : A -> R) c l : rsum (map (fun x => c * f x) l) = c * rsum (map f l).
Proof. induction l as [|x l IH]; cbn; [lra|]. rewrite IH. lra. Qed.
Lemma rsum_ext {A} (f g : A -> R) l : (forall x, In x l -> f x = g x) -> rsum (map f l) = rsum (map g l).
Proof. intros H. f_equal. apply map_ext_in. auto. Qed.

Lemma gridsum_ext a b f g : (forall i j, (i < a)%nat -> (j < b)%nat -> f i j = g i j) -> gridsum a b f = gridsum a b g.
Proof. intros H. apply bigsum_ext. intros i Hi. apply bigsum_ext. intros j Hj. auto. Qed.
Lemma gridsum_plus a b f g : gridsum a b (fun i j => f i j + g i j) = gridsum a b f + gridsum a b g.
Proof. unfold gridsum. rewrite <- bigsum_plus. apply bigsum_ext. intros. apply bigsum_plus. Qed.
Lemma gridsum_scal a b c f : gridsum a b (fun i j => c * f i j) = c * gridsum a b f.
Proof. unfold gridsum. rewrite <- bigsum_scal. apply bigsum_ext. intros. apply bigsum_scal. Qed.
Lemma gridsum_bigsum a b n (f : nat -> nat -> nat -> R) :
  gridsum a b (fun i j => bigsum n (fun k => f k i j)) = bigsum n (fun k => gridsum a b (f k)).
Proof.
  unfold gridsum. rewrite (bigsum_swap n a). apply bigsum_ext. intros i _. apply (bigsum_swap b n (fun j k => f k i j)).
Qed.
Lemma gridsum_pos a b f : (0 < a)%nat -> (0 < b)%nat -> (forall i j, (i < a)%nat -> (j < b)%nat -> 0 < f i j) -> 0 < gridsum a b f.
Proof. intros Ha Hb H. apply bigsum_pos; auto. intros i Hi. apply bigsum_pos; auto. Qed.
