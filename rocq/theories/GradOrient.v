(** Orientation, origin and seam of the grid in gradient (C111). *)
From Coq Require Import Reals List Bool Arith ZArith Lra Lia String.
From Verif Require Import PyBase Num NumFacts Arr ArrFacts Hybrid Gradient SpecGrad GradSeries GradFacts GradApi GradArc.
Import ListNotations.
Local Open Scope R_scope.


Lemma fsub_swap (a b : fl) : nsub b a = nneg (nsub a b).
Proof. destruct a, b; cbn; try reflexivity. f_equal. lra. Qed.
Lemma fdiv_opp (a : fl) (y : R) : y <> 0 -> fl_div (nneg a) (Fin (- y)) = fl_div a (Fin y).
Proof.
  intros Hy. destruct a as [x| | |].
  - change (nneg (Fin x)) with (Fin (- x)). rewrite !fdiv_fin by lra. f_equal. field. auto.
  - cbn. destruct (Rlt_dec (- y) 0), (Rlt_dec y 0); try lra; reflexivity.
  - cbn. destruct (Rlt_dec (- y) 0), (Rlt_dec y 0); try lra; reflexivity.
  - reflexivity.
Qed.
Lemma fdiv_neg_l (a : fl) (y : R) : y <> 0 -> fl_div (nneg a) (Fin y) = nneg (fl_div a (Fin y)).
Proof.
  intros Hy. destruct a as [x| | |].
  - change (nneg (Fin x)) with (Fin (- x)). rewrite !fdiv_fin by lra. cbn. f_equal. field. auto.
  - cbn. destruct (Rlt_dec y 0); reflexivity.
  - cbn. destruct (Rlt_dec y 0); reflexivity.
  - reflexivity.
Qed.
Lemma fdiv_neg_r (a : fl) (y : R) : y <> 0 -> fl_div a (Fin (- y)) = nneg (fl_div a (Fin y)).
Proof.
  intros Hy. rewrite <- (fdiv_opp a y) by auto. rewrite <- fdiv_neg_l by lra. f_equal. destruct a; cbn; auto. f_equal. lra.
Qed.

Lemma nslope_rev n (f : nat -> fl) i : (2 <= n)%nat -> (i < n)%nat ->
  nslope n (fun k => f (n - 1 - k)%nat) i = nneg (nslope n f (n - 1 - i)).
Proof.
  intros Hn Hi. unfold nslope.
  destruct (Nat.eqb_spec i 0) as [->|H0].
  - destruct (Nat.eqb_spec (n - 1 - 0) 0); [lia|]. destruct (Nat.eqb_spec (n - 1 - 0) (n - 1)); [|lia].
    replace (n - 1 - 0 - 1)%nat with (n - 1 - 1)%nat by lia. apply fsub_swap.
  - destruct (Nat.eqb_spec i (n - 1)) as [->|H1].
    + destruct (Nat.eqb_spec (n - 1 - (n - 1)) 0); [|lia]. replace (n - 1 - (n - 1))%nat with 0%nat by lia. replace (n - 1 - (n - 1 - 1))%nat with 1%nat by lia. apply fsub_swap.
    + destruct (Nat.eqb_spec (n - 1 - i) 0); [lia|]. destruct (Nat.eqb_spec (n - 1 - i) (n - 1)); [lia|].
      replace (n - 1 - (i + 1))%nat with (n - 1 - i - 1)%nat by lia. replace (n - 1 - (i - 1))%nat with (n - 1 - i + 1)%nat by lia.
      rewrite fsub_swap. change (ofZ 2) with (Fin 2). change (@ndiv fl NumFl) with fl_div. apply fdiv_neg_l. lra.
Qed.
Lemma slope_rev n f i : (2 <= n)%nat -> (i < n)%nat -> slope n (fun k => f (n - 1 - k)%nat) i = - slope n f (n - 1 - i).
Proof.
  intros Hn Hi. pose proof (nslope_rev n (fun k => Fin (f k)) i Hn Hi) as H. cbv beta in H.
  rewrite !nslope_fin in H. cbn in H. injection H as H. exact H.
Qed.
Lemma nslope_ext' n (f g : nat -> fl) i : (2 <= n)%nat -> (i < n)%nat -> (forall k, (k < n)%nat -> f k = g k) -> nslope n f i = nslope n g i.
Proof.
  intros Hn Hi H. unfold nslope. destruct (Nat.eqb_spec i 0); [now rewrite !H by lia|].
  destruct (Nat.eqb_spec i (n - 1)); rewrite !H by lia; reflexivity.
Qed.

Section Orient.
  Variables (data data' : val fl) (lon lat lon' lat' : arr fl) (n m : nat) (LO LA : nat -> nat -> R).
  Hypothesis Hn : (2 <= n)%nat.
  Hypothesis Hm : (2 <= m)%nat.
  Hypothesis Hd : vshape data = [n; m].
  Hypothesis Hd' : vshape data' = [n; m].
  Hypothesis G : finite_grid lon lat n m LO LA.

  Lemma c111_rows : finite_grid lon' lat' n m (fun i j => LO (n - 1 - i)%nat j) (fun i j => LA (n - 1 - i)%nat j) ->
    (forall i j, (i < n)%nat -> (j < m)%nat -> cell data' i j = cell data (n - 1 - i) j) ->
    exists r0 r1 s0 s1, gradient data (Some lon) (Some lat) = Ok [r0; r1] /\ gradient data' (Some lon') (Some lat') = Ok [s0; s1] /\
      forall i j, (i < n)%nat -> (j < m)%nat ->
        (slope n (fun k => arc_series (LA k j)) (n - 1 - i) <> 0 -> cell s0 i j = cell r0 (n - 1 - i) j) /\
        cell s1 i j = cell r1 (n - 1 - i) j.
  Proof.
    intros G' Hc. destruct (gradient_fl data lon lat n m LO LA Hn Hm Hd G) as (r0 & r1 & E & _ & _ & C).
    destruct (gradient_fl data' lon' lat' n m _ _ Hn Hm Hd' G') as (s0 & s1 & E' & _ & _ & C').
    exists r0, r1, s0, s1. split; auto. split; auto. intros i j Hi Hj. destruct (C' i j Hi Hj) as [-> ->].
    destruct (C (n - 1 - i)%nat j ltac:(lia) Hj) as [-> ->]. split.
    - intros Hz. rewrite (slope_rev n (fun k => arc_series (LA k j))) by auto.
      rewrite (nslope_ext' n _ (fun k => cell data (n - 1 - k) j)) by auto.
      rewrite (nslope_rev n (fun k => cell data k j)) by auto. apply fdiv_opp. auto.
    - f_equal. apply nslope_ext'; auto.
  Qed.

  Lemma c111_cols : finite_grid lon' lat' n m (fun i j => LO i (m - 1 - j)%nat) (fun i j => LA i (m - 1 - j)%nat) ->
    (forall i j, (i < n)%nat -> (j < m)%nat -> cell data' i j = cell data i (m - 1 - j)) ->
    exists r0 r1 s0 s1, gradient data (Some lon) (Some lat) = Ok [r0; r1] /\ gradient data' (Some lon') (Some lat') = Ok [s0; s1] /\
      forall i j, (i < n)%nat -> (j < m)%nat ->
        cell s0 i j = cell r0 i (m - 1 - j) /\
        (slope m (fun k => lon_arc (LO i k) (LA i k)) (m - 1 - j) <> 0 -> cell s1 i j = cell r1 i (m - 1 - j)).
  Proof.
    intros G' Hc. destruct (gradient_fl data lon lat n m LO LA Hn Hm Hd G) as (r0 & r1 & E & _ & _ & C).
    destruct (gradient_fl data' lon' lat' n m _ _ Hn Hm Hd' G') as (s0 & s1 & E' & _ & _ & C').
    exists r0, r1, s0, s1. split; auto. split; auto. intros i j Hi Hj. destruct (C' i j Hi Hj) as [-> ->].
    destruct (C i (m - 1 - j)%nat Hi ltac:(lia)) as [-> ->]. split.
    - f_equal. apply nslope_ext'; auto.
    - intros Hz. rewrite (slope_rev m (fun k => lon_arc (LO i k) (LA i k))) by auto.
      rewrite (nslope_ext' m _ (fun k => cell data i (m - 1 - k))) by auto.
      rewrite (nslope_rev m (fun k => cell data i k)) by auto. apply fdiv_opp. auto.
  Qed.

  Lemma lon_arc_shift lo la c : lon_arc (lo + c) la = lon_arc lo la + lon_arc c la.
  Proof. unfold lon_arc. ring. Qed.

  Lemma c111_origin c : finite_grid lon' lat' n m (fun i j => LO i j + c) LA ->
    (forall i j k, (i < n)%nat -> (j < m)%nat -> (k < m)%nat -> LA i j = LA i k) ->
    (forall i j, (i < n)%nat -> (j < m)%nat -> cell data' i j = cell data i j) ->
    exists r0 r1 s0 s1, gradient data (Some lon) (Some lat) = Ok [r0; r1] /\ gradient data' (Some lon') (Some lat') = Ok [s0; s1] /\
      forall i j, (i < n)%nat -> (j < m)%nat -> cell s0 i j = cell r0 i j /\ cell s1 i j = cell r1 i j.
  Proof.
    intros G' Hla Hc. destruct (gradient_fl data lon lat n m LO LA Hn Hm Hd G) as (r0 & r1 & E & _ & _ & C).
    destruct (gradient_fl data' lon' lat' n m _ _ Hn Hm Hd' G') as (s0 & s1 & E' & _ & _ & C').
    exists r0, r1, s0, s1. split; auto. split; auto. intros i j Hi Hj. destruct (C' i j Hi Hj) as [-> ->]. destruct (C i j Hi Hj) as [-> ->].
    split.
    - f_equal. apply nslope_ext'; auto.
    - f_equal; [apply nslope_ext'; auto|]. f_equal.
      rewrite (slope_ext m _ (fun k => lon_arc c (LA i 0%nat) + 1 * lon_arc (LO i k) (LA i k))); auto.
      + rewrite slope_affine. lra.
      + intros k Hk. rewrite lon_arc_shift, (Hla i 0%nat k) by lia. lra.
  Qed.

  Lemma c111_mirror : finite_grid lon' lat' n m LO (fun i j => - LA i j) ->
    (forall i j, (i < n)%nat -> (j < m)%nat -> cell data' i j = cell data i j) ->
    exists r0 r1 s0 s1, gradient data (Some lon) (Some lat) = Ok [r0; r1] /\ gradient data' (Some lon') (Some lat') = Ok [s0; s1] /\
      forall i j, (i < n)%nat -> (j < m)%nat ->
        (slope n (fun k => arc_series (LA k j)) i <> 0 -> cell s0 i j = nneg (cell r0 i j)) /\ cell s1 i j = cell r1 i j.
  Proof.
    intros G' Hc. destruct (gradient_fl data lon lat n m LO LA Hn Hm Hd G) as (r0 & r1 & E & _ & _ & C).
    destruct (gradient_fl data' lon' lat' n m _ _ Hn Hm Hd' G') as (s0 & s1 & E' & _ & _ & C').
    exists r0, r1, s0, s1. split; auto. split; auto. intros i j Hi Hj. destruct (C' i j Hi Hj) as [-> ->]. destruct (C i j Hi Hj) as [-> ->].
    split.
    - intros Hz. rewrite <- fdiv_neg_r by auto. f_equal; [apply nslope_ext'; auto|]. f_equal.
      rewrite (slope_ext n _ (fun k => 0 + (-1) * arc_series (LA k j))); auto.
      + rewrite slope_affine. lra.
      + intros k Hk. rewrite arc_odd. lra.
    - f_equal; [apply nslope_ext'; auto|]. f_equal. apply slope_ext; auto. intros k Hk. unfold lon_arc. rewrite rad_even.
      replace (- LA i k * rd2r) with (- (LA i k * rd2r)) by ring. rewrite cos_neg. reflexivity.
  Qed.
End Orient.

(** the longitudes of the columns after column j written 360 degrees smaller *)
Lemma c111_seam (data : val fl) lon lat lon' lat' n m LO LA D i j : (2 <= n)%nat -> (2 <= m)%nat -> finite_data data n m D ->
  finite_grid lon lat n m (fun _ k => LO k) (fun i _ => LA i) ->
  finite_grid lon' lat' n m (fun _ k => if Nat.leb k j then LO k else LO k - 360) (fun i _ => LA i) ->
  (i < n)%nat -> (0 < j)%nat -> (j + 1 < m)%nat -> -90 <= LA i <= 90 ->
  0 < LO (j + 1)%nat - LO (j - 1)%nat < 360 ->
  exists r0 r1 s0 s1 g, gradient data (Some lon) (Some lat) = Ok [r0; r1] /\ gradient data (Some lon') (Some lat') = Ok [s0; s1] /\
    cell r1 i j = Fin g /\
    cell s1 i j = Fin (- g * (LO (j + 1)%nat - LO (j - 1)%nat) / (360 - (LO (j + 1)%nat - LO (j - 1)%nat))).
Proof.
  intros Hn Hm [Hd HD] G G' Hi Hj Hj2 Hla Hw.
  destruct (gradient_fl data lon lat n m _ _ Hn Hm Hd G) as (r0 & r1 & E & _ & _ & C).
  destruct (gradient_fl data lon' lat' n m _ _ Hn Hm Hd G') as (s0 & s1 & E' & _ & _ & C').
  destruct (C i j Hi ltac:(lia)) as [_ C1]. destruct (C' i j Hi ltac:(lia)) as [_ C1'].
  rewrite (nslope_ext' m _ (fun k => Fin (D i k))) in C1 by (auto; lia). rewrite (nslope_ext' m _ (fun k => Fin (D i k))) in C1' by (auto; lia).
  rewrite nslope_fin in C1, C1'. set (dd := slope m (fun k => D i k) j) in *. set (w := LO (j + 1)%nat - LO (j - 1)%nat) in *.
  pose proof (parallel_pos (LA i) Hla) as Hp. set (q := rad_series (LA i) * cos (LA i * rd2r) * rd2r) in *.
  assert (S1 : slope m (fun k => lon_arc (LO k) (LA i)) j = q * w / 2).
  { unfold slope. destruct (Nat.eqb_spec j 0); [lia|]. destruct (Nat.eqb_spec j (m - 1)); [lia|]. unfold lon_arc, q, w. lra. }
  assert (S2 : slope m (fun k => lon_arc (if Nat.leb k j then LO k else LO k - 360) (LA i)) j = - (q * (360 - w) / 2)).
  { unfold slope. destruct (Nat.eqb_spec j 0); [lia|]. destruct (Nat.eqb_spec j (m - 1)); [lia|].
    replace (Nat.leb (j + 1) j) with false by (symmetry; apply Nat.leb_gt; lia). replace (Nat.leb (j - 1) j) with true by (symmetry; apply Nat.leb_le; lia).
    unfold lon_arc, q, w. lra. }
  assert (0 < q * w) by (apply Rmult_lt_0_compat; lra). assert (0 < q * (360 - w)) by (apply Rmult_lt_0_compat; lra).
  rewrite S1, fdiv_fin in C1 by lra. rewrite S2, fdiv_fin in C1' by lra.
  exists r0, r1, s0, s1, (dd / (q * w / 2)). repeat (split; [assumption|]). rewrite C1'. f_equal. field. repeat split; lra.
Qed.
