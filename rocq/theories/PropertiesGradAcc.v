(** C130: gradient compared with the derivative. *)
From Coq Require Import Reals List Bool Arith Lra Lia String.
From Verif Require Import PyBase PyFacts Num NumFacts Arr ArrFacts CellFacts Hybrid Gradient PolyZ SpecGrad GradSeries GradFacts GradApi GradAccuracy PropertiesGrad.
Import ListNotations.
Local Open Scope R_scope.

(** C130.  Data sampled from a function f of the distance along the axis: the value at a grid point is the derivative of f at a point
    strictly between the two neighbours (between the point and its one neighbour at an edge). *)
Theorem C130_mean_slope :
  forall data lon lat n m LO LA D, (2 <= n)%nat -> (2 <= m)%nat -> finite_data data n m D -> finite_grid lon lat n m LO LA ->
  exists r0 r1, gradient data (Some lon) (Some lat) = Ok [r0; r1] /\
    forall i j f f', (i < n)%nat -> (j < m)%nat ->
      ((forall k, (k < n)%nat -> D k j = f (arc_series (LA k j))) -> slope n (fun k => arc_series (LA k j)) i <> 0 ->
       let a := arc_series (LA (i - 1)%nat j) in let b := arc_series (LA (Nat.min (i + 1) (n - 1)) j) in
       (forall x, Rmin a b <= x <= Rmax a b -> derivable_pt_lim f x (f' x)) ->
       exists x, Rmin a b < x < Rmax a b /\ cell r0 i j = Fin (f' x)) /\
      ((forall k, (k < m)%nat -> D i k = f (lon_arc (LO i k) (LA i k))) -> slope m (fun k => lon_arc (LO i k) (LA i k)) j <> 0 ->
       let a := lon_arc (LO i (j - 1)%nat) (LA i (j - 1)%nat) in let b := lon_arc (LO i (Nat.min (j + 1) (m - 1))) (LA i (Nat.min (j + 1) (m - 1))) in
       (forall x, Rmin a b <= x <= Rmax a b -> derivable_pt_lim f x (f' x)) ->
       exists x, Rmin a b < x < Rmax a b /\ cell r1 i j = Fin (f' x)).
Proof. exact c130_mean. Qed.
Print Assumptions C130_mean_slope.

(** C130.  Quadratic data: the derivative plus the curvature times the distance of the point from the middle of its neighbours; no error
    at inner points of a parallel with equally spaced longitudes, an error of one spacing times the curvature at an edge. *)
Theorem C130_quadratic :
  forall data lon lat n m LO LA D, (2 <= n)%nat -> (2 <= m)%nat -> finite_data data n m D -> finite_grid lon lat n m LO LA ->
  forall c s q, exists r0 r1, gradient data (Some lon) (Some lat) = Ok [r0; r1] /\
    forall i j, (i < n)%nat -> (j < m)%nat ->
      ((forall k, (k < n)%nat -> D k j = c + s * arc_series (LA k j) + q * arc_series (LA k j) ^ 2) -> slope n (fun k => arc_series (LA k j)) i <> 0 ->
       let X k := arc_series (LA k j) in
       cell r0 i j = Fin (s + 2 * q * X i + q * (X (i - 1)%nat + X (Nat.min (i + 1) (n - 1)) - 2 * X i))) /\
      ((forall k, (k < m)%nat -> D i k = c + s * lon_arc (LO i k) (LA i k) + q * lon_arc (LO i k) (LA i k) ^ 2) -> slope m (fun k => lon_arc (LO i k) (LA i k)) j <> 0 ->
       let X k := lon_arc (LO i k) (LA i k) in
       cell r1 i j = Fin (s + 2 * q * X j + q * (X (j - 1)%nat + X (Nat.min (j + 1) (m - 1)) - 2 * X j)) /\
       ((0 < j < m - 1)%nat -> (forall k, LA i k = LA i 0%nat) -> LO i (j + 1)%nat - LO i j = LO i j - LO i (j - 1)%nat -> cell r1 i j = Fin (s + 2 * q * X j))).
Proof. exact c130_quadratic. Qed.
Print Assumptions C130_quadratic.

(** the square of the eastward distance on the grid of C48, along the equator: exact in the middle, one spacing too large at the western edge *)
Definition square_east : val fl := VNd (mkArr [4; 3]%nat (fun i => Fin (lon_arc (ex_LO (nth 1 i 0%nat)) (ex_LA (nth 0 i 0%nat)) ^ 2))).
Example C130_example : exists r0 r1, gradient square_east (Some ex_lon) (Some ex_lat) = Ok [r0; r1] /\
  cell r1 1 1 = Fin (2 * lon_arc 10 0) /\ cell r1 1 0 = Fin (2 * lon_arc 0 0 + (lon_arc 10 0 - lon_arc 0 0)).
Proof.
  assert (F : finite_data square_east 4 3 (fun i j => lon_arc (ex_LO j) (ex_LA i) ^ 2)) by (split; [reflexivity|]; intros; reflexivity).
  destruct (C130_quadratic square_east ex_lon ex_lat 4 3 (fun _ j => ex_LO j) (fun i _ => ex_LA i) _ ltac:(lia) ltac:(lia) F ex_grid 0 0 1) as (r0 & r1 & E & V).
  assert (S0 : forall j, (j < 3)%nat -> slope 3 (fun k => lon_arc (ex_LO k) (ex_LA 1)) j <> 0).
  { intros j Hj. exact (proj2 (C48_distances_nonzero ex_lon ex_lat 4 3 ex_LO ex_LA ltac:(lia) ltac:(lia) ex_grid ex_range ex_lat_monotone ex_lon_monotone 1%nat j ltac:(lia) Hj)). }
  exists r0, r1. split; [exact E|]. split.
  - destruct (V 1%nat 1%nat ltac:(lia) ltac:(lia)) as [_ V1]. destruct (V1 ltac:(intros; ring) (S0 1%nat ltac:(lia))) as [_ W].
    rewrite W; [f_equal; change (ex_LO 1) with 10; change (ex_LA 1) with 0; ring|lia|reflexivity|]. cbn. unfold ex_LO. cbn. lra.
  - destruct (V 1%nat 0%nat ltac:(lia) ltac:(lia)) as [_ V1]. destruct (V1 ltac:(intros; ring) (S0 0%nat ltac:(lia))) as [W _]. cbv zeta in W. rewrite W. f_equal.
    cbn [Nat.sub Nat.min Nat.add]. change (ex_LO 1) with 10. change (ex_LA 1) with 0. change (ex_LO 0) with 0. ring.
Qed.
(** equally spaced latitudes are not equally far apart: the radius that the series integrates shrinks towards the pole *)
Example C130_example_north : arc_series 0 + arc_series 20 - 2 * arc_series 10 < 0.
Proof. exact arc_20_10. Qed.
