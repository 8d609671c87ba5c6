(** C111: gradient does not depend on how the grid is listed; the seam of the longitudes. *)
From Coq Require Import Reals List Bool Arith ZArith Lra Lia String.
From Verif Require Import PyBase Num NumFacts Arr ArrFacts Hybrid Gradient SpecGrad GradSeries GradFacts GradApi GradArc GradOrient.
Import ListNotations.
Local Open Scope R_scope.

(** C111.  Rows listed in the opposite order (north to south instead of south to north): both components come out in the
    opposite order and are otherwise the same.  Any data, missing values included. *)
Theorem C111_row_order :
  forall (data data' : val fl) lon lat lon' lat' n m LO LA,
  (2 <= n)%nat -> (2 <= m)%nat -> vshape data = [n; m] -> vshape data' = [n; m] ->
  finite_grid lon lat n m LO LA ->
  finite_grid lon' lat' n m (fun i j => LO (n - 1 - i)%nat j) (fun i j => LA (n - 1 - i)%nat j) ->
  (forall i j, (i < n)%nat -> (j < m)%nat -> cell data' i j = cell data (n - 1 - i) j) ->
  exists r0 r1 s0 s1, gradient data (Some lon) (Some lat) = Ok [r0; r1] /\ gradient data' (Some lon') (Some lat') = Ok [s0; s1] /\
    forall i j, (i < n)%nat -> (j < m)%nat ->
      (slope n (fun k => arc_series (LA k j)) (n - 1 - i) <> 0 -> cell s0 i j = cell r0 (n - 1 - i) j) /\
      cell s1 i j = cell r1 (n - 1 - i) j.
Proof. exact c111_rows. Qed.
Print Assumptions C111_row_order.

(** C111.  The same for columns. *)
Theorem C111_column_order :
  forall (data data' : val fl) lon lat lon' lat' n m LO LA,
  (2 <= n)%nat -> (2 <= m)%nat -> vshape data = [n; m] -> vshape data' = [n; m] ->
  finite_grid lon lat n m LO LA ->
  finite_grid lon' lat' n m (fun i j => LO i (m - 1 - j)%nat) (fun i j => LA i (m - 1 - j)%nat) ->
  (forall i j, (i < n)%nat -> (j < m)%nat -> cell data' i j = cell data i (m - 1 - j)) ->
  exists r0 r1 s0 s1, gradient data (Some lon) (Some lat) = Ok [r0; r1] /\ gradient data' (Some lon') (Some lat') = Ok [s0; s1] /\
    forall i j, (i < n)%nat -> (j < m)%nat ->
      cell s0 i j = cell r0 i (m - 1 - j) /\
      (slope m (fun k => lon_arc (LO i k) (LA i k)) (m - 1 - j) <> 0 -> cell s1 i j = cell r1 i (m - 1 - j)).
Proof. exact c111_cols. Qed.
Print Assumptions C111_column_order.

(** C111.  Rows of constant latitude, longitudes counted from another meridian: the same result. *)
Theorem C111_longitude_origin :
  forall (data data' : val fl) lon lat lon' lat' n m LO LA,
  (2 <= n)%nat -> (2 <= m)%nat -> vshape data = [n; m] -> vshape data' = [n; m] ->
  finite_grid lon lat n m LO LA ->
  forall c, finite_grid lon' lat' n m (fun i j => LO i j + c) LA ->
  (forall i j k, (i < n)%nat -> (j < m)%nat -> (k < m)%nat -> LA i j = LA i k) ->
  (forall i j, (i < n)%nat -> (j < m)%nat -> cell data' i j = cell data i j) ->
  exists r0 r1 s0 s1, gradient data (Some lon) (Some lat) = Ok [r0; r1] /\ gradient data' (Some lon') (Some lat') = Ok [s0; s1] /\
    forall i j, (i < n)%nat -> (j < m)%nat -> cell s0 i j = cell r0 i j /\ cell s1 i j = cell r1 i j.
Proof. exact c111_origin. Qed.
Print Assumptions C111_longitude_origin.

(** C111.  The field mirrored at the equator: the northward component changes sign, the eastward one does not change. *)
Theorem C111_hemispheres :
  forall (data data' : val fl) lon lat lon' lat' n m LO LA,
  (2 <= n)%nat -> (2 <= m)%nat -> vshape data = [n; m] -> vshape data' = [n; m] ->
  finite_grid lon lat n m LO LA -> finite_grid lon' lat' n m LO (fun i j => - LA i j) ->
  (forall i j, (i < n)%nat -> (j < m)%nat -> cell data' i j = cell data i j) ->
  exists r0 r1 s0 s1, gradient data (Some lon) (Some lat) = Ok [r0; r1] /\ gradient data' (Some lon') (Some lat') = Ok [s0; s1] /\
    forall i j, (i < n)%nat -> (j < m)%nat ->
      (slope n (fun k => arc_series (LA k j)) i <> 0 -> cell s0 i j = nneg (cell r0 i j)) /\ cell s1 i j = cell r1 i j.
Proof. exact c111_mirror. Qed.
Print Assumptions C111_hemispheres.

(** C111 is false across the 180 degree (or 360 degree) meridian: with the columns after column j written 360 degrees smaller,
    the eastward component at column j changes sign and is too small by the factor w / (360 - w), w the width of the stencil. *)
Theorem C111_seam_refuted :
  forall (data : val fl) lon lat lon' lat' n m LO LA D i j,
  (2 <= n)%nat -> (2 <= m)%nat -> finite_data data n m D ->
  finite_grid lon lat n m (fun _ k => LO k) (fun i _ => LA i) ->
  finite_grid lon' lat' n m (fun _ k => if Nat.leb k j then LO k else LO k - 360) (fun i _ => LA i) ->
  (i < n)%nat -> (0 < j)%nat -> (j + 1 < m)%nat -> -90 <= LA i <= 90 ->
  0 < LO (j + 1)%nat - LO (j - 1)%nat < 360 ->
  exists r0 r1 s0 s1 g, gradient data (Some lon) (Some lat) = Ok [r0; r1] /\ gradient data (Some lon') (Some lat') = Ok [s0; s1] /\
    cell r1 i j = Fin g /\
    cell s1 i j = Fin (- g * (LO (j + 1)%nat - LO (j - 1)%nat) / (360 - (LO (j + 1)%nat - LO (j - 1)%nat))).
Proof. exact c111_seam. Qed.
Print Assumptions C111_seam_refuted.

(** ** a 2 x 3 grid: latitudes 10 and 20, longitudes 170, 180, 190 *)
Definition g_lon (c : R) : arr fl := mkArr [3]%nat (fun i => Fin (170 + 10 * INR (hd 0%nat i) + c)).
Definition g_lon' : arr fl := mkArr [3]%nat (fun i => Fin (if Nat.leb (hd 0%nat i) 1 then 170 + 10 * INR (hd 0%nat i) else 170 + 10 * INR (hd 0%nat i) - 360)).
Definition g_lat : arr fl := mkArr [2]%nat (fun i => Fin (10 + 10 * INR (hd 0%nat i))).
Definition g_lat_rev : arr fl := mkArr [2]%nat (fun i => Fin (10 + 10 * INR (2 - 1 - hd 0%nat i))).
Definition g_data : val fl := VNd (mkArr [2; 3]%nat (fun i => Fin (INR (hd 0%nat i) + 7 * INR (nth 1 i 0%nat)))).
Definition g_data_rev : val fl := VNd (mkArr [2; 3]%nat (fun i => Fin (INR (2 - 1 - hd 0%nat i) + 7 * INR (nth 1 i 0%nat)))).
Example C111_example_rows : exists r0 r1 s0 s1,
  gradient g_data (Some (g_lon 0)) (Some g_lat) = Ok [r0; r1] /\ gradient g_data_rev (Some (g_lon 0)) (Some g_lat_rev) = Ok [s0; s1] /\
  cell s0 0 1 = cell r0 1 1 /\ cell s1 0 1 = cell r1 1 1.
Proof.
  assert (G : finite_grid (g_lon 0) g_lat 2 3 (fun _ j => 170 + 10 * INR j + 0) (fun i _ => 10 + 10 * INR i)) by (apply grid_1d; try reflexivity; intros; split; reflexivity).
  assert (G' : finite_grid (g_lon 0) g_lat_rev 2 3 (fun _ j => 170 + 10 * INR j + 0) (fun i _ => 10 + 10 * INR (2 - 1 - i))) by (apply grid_1d; try reflexivity; intros; split; reflexivity).
  destruct (C111_row_order g_data g_data_rev _ _ _ _ 2 3 _ _ ltac:(lia) ltac:(lia) eq_refl eq_refl G G' ltac:(reflexivity)) as (r0 & r1 & s0 & s1 & E & E' & C).
  exists r0, r1, s0, s1. split; auto. split; auto. destruct (C 0 1 ltac:(lia) ltac:(lia))%nat as [C0 C1]. split; auto. apply C0.
  destruct (c48_distances_nonzero (g_lon 0) g_lat 2 3 _ (fun i => 10 + 10 * INR i) ltac:(lia) ltac:(lia) G) with (i := 1%nat) (j := 1%nat) as [Z _]; try lia; [| | |exact Z].
  - intros i Hi. destruct i as [|[|i]]; [| |lia]; cbn; lra.
  - left. intros [|[|i]] [|[|j]]; intros; try lia; cbn; lra.
  - left. intros [|[|[|i]]] [|[|[|j]]]; intros; try lia; cbn; lra.
Qed.
Example C111_example_origin : exists r0 r1 s0 s1,
  gradient g_data (Some (g_lon 0)) (Some g_lat) = Ok [r0; r1] /\ gradient g_data (Some (g_lon (-360))) (Some g_lat) = Ok [s0; s1] /\
  cell s1 1 2 = cell r1 1 2.
Proof.
  assert (G : finite_grid (g_lon 0) g_lat 2 3 (fun _ j => 170 + 10 * INR j + 0) (fun i _ => 10 + 10 * INR i)) by (apply grid_1d; try reflexivity; intros; split; reflexivity).
  assert (G' : finite_grid (g_lon (-360)) g_lat 2 3 (fun _ j => 170 + 10 * INR j + 0 + -360) (fun i _ => 10 + 10 * INR i)).
  { apply grid_1d; try reflexivity. intros i j Hi Hj. split; [|reflexivity]. cbn. f_equal. lra. }
  destruct (C111_longitude_origin g_data g_data _ _ _ _ 2 3 _ _ ltac:(lia) ltac:(lia) eq_refl eq_refl G (-360) G' ltac:(reflexivity) ltac:(reflexivity)) as (r0 & r1 & s0 & s1 & E & E' & C).
  exists r0, r1, s0, s1. split; auto. split; auto. apply C; lia.
Qed.
(** 170, 180, -170 instead of 170, 180, 190: minus one seventeenth of the eastward component *)
Example C111_example_seam : exists r0 r1 s0 s1 g,
  gradient g_data (Some (g_lon 0)) (Some g_lat) = Ok [r0; r1] /\ gradient g_data (Some g_lon') (Some g_lat) = Ok [s0; s1] /\
  cell r1 0 1 = Fin g /\ cell s1 0 1 = Fin (- g / 17).
Proof.
  assert (G : finite_grid (g_lon 0) g_lat 2 3 (fun _ j => 170 + 10 * INR j + 0) (fun i _ => 10 + 10 * INR i)) by (apply grid_1d; try reflexivity; intros; split; reflexivity).
  assert (G' : finite_grid g_lon' g_lat 2 3 (fun _ j => if Nat.leb j 1 then 170 + 10 * INR j + 0 else 170 + 10 * INR j + 0 - 360) (fun i _ => 10 + 10 * INR i)).
  { apply grid_1d; try reflexivity. intros i j Hi Hj. split; [|reflexivity]. cbn [g_lon' get hd]. destruct (Nat.leb j 1); f_equal; lra. }
  destruct (C111_seam_refuted g_data _ _ _ _ 2 3 (fun j => 170 + 10 * INR j + 0) _ (fun i j => INR i + 7 * INR j) 0 1 ltac:(lia) ltac:(lia) ltac:(split; reflexivity) G G' ltac:(lia) ltac:(lia) ltac:(lia) ltac:(cbn; lra) ltac:(cbn; lra))
    as (r0 & r1 & s0 & s1 & g & E & E' & C & C').
  exists r0, r1, s0, s1, g. split; auto. split; auto. split; auto. rewrite C'. f_equal. cbn. field.
Qed.
