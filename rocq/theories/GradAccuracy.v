(** How far gradient is from the derivative (C130). *)
From Coq Require Import Reals List Bool Arith ZArith Lra Lia String.
From Verif Require Import PyBase PyFacts Num NumFacts Arr ArrFacts CellFacts Hybrid Gradient PolyZ SpecGrad GradSeries GradFacts GradApi.
Import ListNotations.
Local Open Scope R_scope.

Lemma slope_ratio n (D X : nat -> R) k : (2 <= n)%nat -> (k < n)%nat -> slope n X k <> 0 ->
  X (Nat.min (k + 1) (n - 1)) <> X (k - 1)%nat /\
  slope n D k / slope n X k = (D (Nat.min (k + 1) (n - 1)) - D (k - 1)%nat) / (X (Nat.min (k + 1) (n - 1)) - X (k - 1)%nat).
Proof.
  intros Hn Hk. unfold slope. destruct (Nat.eqb_spec k 0) as [->|K0].
  - replace (Nat.min (0 + 1) (n - 1)) with 1%nat by lia. cbn [Nat.sub]. intros N. split; [lra|reflexivity].
  - destruct (Nat.eqb_spec k (n - 1)) as [E|K1].
    + replace (Nat.min (k + 1) (n - 1)) with k by lia. intros N. split; [lra|reflexivity].
    + replace (Nat.min (k + 1) (n - 1)) with (k + 1)%nat by lia. intros N. split; [intros Q; apply N; rewrite Q; lra|]. field. intros Q; apply N; lra.
Qed.
Lemma mean_value f f' a b : a <> b -> (forall x, Rmin a b <= x <= Rmax a b -> derivable_pt_lim f x (f' x)) ->
  exists x, Rmin a b < x < Rmax a b /\ (f b - f a) / (b - a) = f' x.
Proof.
  intros N H. destruct (Rlt_le_dec a b) as [L|L].
  - rewrite Rmin_left, Rmax_right in H |- * by lra. destruct (MVT_cor2 f f' a b L H) as (x & E & B). exists x. split; [exact B|]. rewrite E. field. lra.
  - rewrite Rmin_right, Rmax_left in H |- * by lra. destruct (MVT_cor2 f f' b a ltac:(lra) H) as (x & E & B). exists x. split; [exact B|].
    replace (f b - f a) with (- (f a - f b)) by ring. rewrite E. field. lra.
Qed.

(** ** one axis: positions X, data D *)
Lemma axis_mean n (D X : nat -> R) f f' k : (2 <= n)%nat -> (k < n)%nat -> slope n X k <> 0 -> (forall i, (i < n)%nat -> D i = f (X i)) ->
  (forall x, Rmin (X (k - 1)%nat) (X (Nat.min (k + 1) (n - 1))) <= x <= Rmax (X (k - 1)%nat) (X (Nat.min (k + 1) (n - 1))) -> derivable_pt_lim f x (f' x)) ->
  exists x, Rmin (X (k - 1)%nat) (X (Nat.min (k + 1) (n - 1))) < x < Rmax (X (k - 1)%nat) (X (Nat.min (k + 1) (n - 1))) /\
    slope n D k / slope n X k = f' x.
Proof.
  intros Hn Hk Hs HD Hf. destruct (slope_ratio n D X k Hn Hk Hs) as [Ne ->]. rewrite !HD by lia. apply mean_value; auto.
Qed.
Lemma axis_quadratic n (D X : nat -> R) c s q k : (2 <= n)%nat -> (k < n)%nat -> slope n X k <> 0 ->
  (forall i, (i < n)%nat -> D i = c + s * X i + q * X i ^ 2) ->
  slope n D k / slope n X k = s + 2 * q * X k + q * (X (k - 1)%nat + X (Nat.min (k + 1) (n - 1)) - 2 * X k).
Proof.
  intros Hn Hk Hs HD. destruct (slope_ratio n D X k Hn Hk Hs) as [Ne ->]. rewrite !HD by lia. field. lra.
Qed.

Section Call.
  Variables (data : val fl) (lon lat : arr fl) (n m : nat) (LO LA D : nat -> nat -> R).
  Hypothesis Hn : (2 <= n)%nat.
  Hypothesis Hm : (2 <= m)%nat.
  Hypothesis HD : finite_data data n m D.
  Hypothesis HG : finite_grid lon lat n m LO LA.
  Lemma c130_mean : exists r0 r1, gradient data (Some lon) (Some lat) = Ok [r0; r1] /\
    forall i j f f', (i < n)%nat -> (j < m)%nat ->
      ((forall k, (k < n)%nat -> D k j = f (arc_series (LA k j))) -> slope n (fun k => arc_series (LA k j)) i <> 0 ->
       let a := arc_series (LA (i - 1)%nat j) in let b := arc_series (LA (Nat.min (i + 1) (n - 1)) j) in
       (forall x, Rmin a b <= x <= Rmax a b -> derivable_pt_lim f x (f' x)) ->
       exists x, Rmin a b < x < Rmax a b /\ cell r0 i j = Fin (f' x)) /\
      ((forall k, (k < m)%nat -> D i k = f (lon_arc (LO i k) (LA i k))) -> slope m (fun k => lon_arc (LO i k) (LA i k)) j <> 0 ->
       let a := lon_arc (LO i (j - 1)%nat) (LA i (j - 1)%nat) in let b := lon_arc (LO i (Nat.min (j + 1) (m - 1))) (LA i (Nat.min (j + 1) (m - 1))) in
       (forall x, Rmin a b <= x <= Rmax a b -> derivable_pt_lim f x (f' x)) ->
       exists x, Rmin a b < x < Rmax a b /\ cell r1 i j = Fin (f' x)).
  Proof.
    destruct (c48_value data lon lat n m LO LA D Hn Hm HD HG) as (r0 & r1 & E & _ & _ & C). exists r0, r1. split; [exact E|].
    intros i j f f' Hi Hj. destruct (C i j Hi Hj) as [C0 C1]. split; intros Hd Hs a b Hf.
    - destruct (axis_mean n (fun k => D k j) (fun k => arc_series (LA k j)) f f' i Hn Hi Hs Hd Hf) as (x & B & V). exists x. split; [exact B|]. rewrite C0, V by exact Hs. reflexivity.
    - destruct (axis_mean m (fun k => D i k) (fun k => lon_arc (LO i k) (LA i k)) f f' j Hm Hj Hs Hd Hf) as (x & B & V). exists x. split; [exact B|]. rewrite C1, V by exact Hs. reflexivity.
  Qed.
  Lemma c130_quadratic c s q : exists r0 r1, gradient data (Some lon) (Some lat) = Ok [r0; r1] /\
    forall i j, (i < n)%nat -> (j < m)%nat ->
      ((forall k, (k < n)%nat -> D k j = c + s * arc_series (LA k j) + q * arc_series (LA k j) ^ 2) -> slope n (fun k => arc_series (LA k j)) i <> 0 ->
       let X k := arc_series (LA k j) in
       cell r0 i j = Fin (s + 2 * q * X i + q * (X (i - 1)%nat + X (Nat.min (i + 1) (n - 1)) - 2 * X i))) /\
      ((forall k, (k < m)%nat -> D i k = c + s * lon_arc (LO i k) (LA i k) + q * lon_arc (LO i k) (LA i k) ^ 2) -> slope m (fun k => lon_arc (LO i k) (LA i k)) j <> 0 ->
       let X k := lon_arc (LO i k) (LA i k) in
       cell r1 i j = Fin (s + 2 * q * X j + q * (X (j - 1)%nat + X (Nat.min (j + 1) (m - 1)) - 2 * X j)) /\
       ((0 < j < m - 1)%nat -> (forall k, LA i k = LA i 0%nat) -> LO i (j + 1)%nat - LO i j = LO i j - LO i (j - 1)%nat -> cell r1 i j = Fin (s + 2 * q * X j))).
  Proof.
    destruct (c48_value data lon lat n m LO LA D Hn Hm HD HG) as (r0 & r1 & E & _ & _ & C). exists r0, r1. split; [exact E|].
    intros i j Hi Hj. destruct (C i j Hi Hj) as [C0 C1]. split; intros Hd Hs X.
    - rewrite C0 by exact Hs. f_equal. exact (axis_quadratic n (fun k => D k j) X c s q i Hn Hi Hs Hd).
    - assert (V : cell r1 i j = Fin (s + 2 * q * X j + q * (X (j - 1)%nat + X (Nat.min (j + 1) (m - 1)) - 2 * X j))).
      { rewrite C1 by exact Hs. f_equal. exact (axis_quadratic m (fun k => D i k) X c s q j Hm Hj Hs Hd). }
      split; [exact V|]. intros Hin Hla Hlo. rewrite V. f_equal. replace (Nat.min (j + 1) (m - 1)) with (j + 1)%nat by lia.
      replace (X (j - 1)%nat + X (j + 1)%nat - 2 * X j) with 0; [ring|]. unfold X, lon_arc. rewrite (Hla (j - 1)%nat), (Hla (j + 1)%nat), (Hla j).
      replace (LO i (j + 1)%nat) with (2 * LO i j - LO i (j - 1)%nat) by lra. ring.
  Qed.
End Call.

(** ** exact values of the series at whole degrees *)
Definition ztsum (K : nat) (ts : list (Z * nat * nat)) (z : Z) : Z :=
  fold_right (fun t acc => let '(m, k, p) := t in (m * 10 ^ Z.of_nat (K - k) * z ^ Z.of_nat p + acc)%Z) 0%Z ts.
Lemma ztsum_ok K ts z : forallb (fun t => Nat.leb (snd (fst t)) K) ts = true -> tsum ts (IZR z) * IZR (10 ^ Z.of_nat K) = IZR (ztsum K ts z).
Proof.
  induction ts as [|[[m k] p] ts IH]; intros H; [unfold tsum, ztsum; cbn; ring|]. cbn [forallb fst snd] in H. apply andb_prop in H. destruct H as [H1 H2]. apply Nat.leb_le in H1.
  unfold tsum, ztsum in *. cbn [fold_right]. rewrite plus_IZR, <- (IH H2), !mult_IZR, Rmult_plus_distr_r. f_equal. unfold rterm.
  replace (Z.of_nat K) with (Z.of_nat k + Z.of_nat (K - k))%Z at 1 by lia. rewrite Z.pow_add_r, mult_IZR, <- !pow_IZR by lia. field. apply pow_nonzero. lra.
Qed.
Lemma arc_20_10 : arc_series 0 + arc_series 20 - 2 * arc_series 10 < 0.
Proof.
  assert (K : forallb (fun t => Nat.leb (snd (fst t)) 140) arc_terms = true) by reflexivity.
  assert (P : 0 < IZR (10 ^ Z.of_nat 140)) by (apply IZR_lt; reflexivity).
  apply Rmult_lt_reg_r with (IZR (10 ^ Z.of_nat 140)); [exact P|].
  rewrite Rmult_0_l, Rmult_minus_distr_r, Rmult_plus_distr_r, Rmult_assoc. unfold arc_series.
  pose proof (ztsum_ok 140 arc_terms 0 K) as E0. pose proof (ztsum_ok 140 arc_terms 10 K) as E1. pose proof (ztsum_ok 140 arc_terms 20 K) as E2.
  rewrite E0, E1, E2, <- (mult_IZR 2), <- plus_IZR, <- minus_IZR. apply IZR_lt. vm_compute. reflexivity.
Qed.
