(** C48-C50, C71, C72: gradient.  [arc_series], [rad_series] and [lon_arc] are the two WGS84 series of gradient.py and
    the longitude arc built from them, as real functions; C71 relates them to the documented formulas. *)
From Coq Require Import Reals List Bool Arith ZArith Lra Lia String.
From Coquelicot Require Import Coquelicot.
From Verif Require Import PyBase Num NumFacts Arr ArrFacts Hybrid Gradient SpecGrad GradSeries GradApi GradArc GradRank3 GradLabels.
Import ListNotations.
Local Open Scope R_scope.


(** C48.  Each value is the finite difference of the data along the axis over the finite difference of the arc length. *)
Theorem C48_gradient_is_difference_quotient :
  forall data lon lat n m LO LA D,
  (2 <= n)%nat -> (2 <= m)%nat -> finite_data data n m D -> finite_grid lon lat n m LO LA ->
  exists r0 r1, gradient data (Some lon) (Some lat) = Ok [r0; r1] /\ vshape r0 = [n; m] /\ vshape r1 = [n; m] /\
    forall i j, (i < n)%nat -> (j < m)%nat ->
      (slope n (fun k => arc_series (LA k j)) i <> 0 ->
       cell r0 i j = Fin (slope n (fun k => D k j) i / slope n (fun k => arc_series (LA k j)) i)) /\
      (slope m (fun k => lon_arc (LO i k) (LA i k)) j <> 0 ->
       cell r1 i j = Fin (slope m (fun k => D i k) j / slope m (fun k => lon_arc (LO i k) (LA i k)) j)).
Proof. exact c48_value. Qed.
Print Assumptions C48_gradient_is_difference_quotient.


(** C48.  On a latitude/longitude grid with strictly monotone coordinates no distance vanishes, not even at the poles. *)
Theorem C48_distances_nonzero :
  forall lon lat n m LO LA,
  (2 <= n)%nat -> (2 <= m)%nat ->
  finite_grid lon lat n m (fun _ j => LO j) (fun i _ => LA i) ->
  (forall i, (i < n)%nat -> -90 <= LA i <= 90) -> strictly_monotone n LA -> strictly_monotone m LO ->
  forall i j, (i < n)%nat -> (j < m)%nat ->
    slope n (fun k => arc_series (LA k)) i <> 0 /\ slope m (fun k => lon_arc (LO k) (LA i)) j <> 0.
Proof. exact c48_distances_nonzero. Qed.
Print Assumptions C48_distances_nonzero.


(** C48.  Linear in the data. *)
Theorem C48_linear :
  forall data data1 data2 lon lat n m LO LA D1 D2 a b,
  (2 <= n)%nat -> (2 <= m)%nat ->
  finite_data data1 n m D1 -> finite_data data2 n m D2 ->
  finite_data data n m (fun i j => a * D1 i j + b * D2 i j) ->
  finite_grid lon lat n m LO LA ->
  exists r0 r1 u0 u1 v0 v1, gradient data (Some lon) (Some lat) = Ok [r0; r1] /\
    gradient data1 (Some lon) (Some lat) = Ok [u0; u1] /\ gradient data2 (Some lon) (Some lat) = Ok [v0; v1] /\
    forall i j, (i < n)%nat -> (j < m)%nat ->
      (slope n (fun k => arc_series (LA k j)) i <> 0 ->
       cell r0 i j = nadd (nmul (Fin a) (cell u0 i j)) (nmul (Fin b) (cell v0 i j))) /\
      (slope m (fun k => lon_arc (LO i k) (LA i k)) j <> 0 ->
       cell r1 i j = nadd (nmul (Fin a) (cell u1 i j)) (nmul (Fin b) (cell v1 i j))).
Proof. exact c48_linear. Qed.
Print Assumptions C48_linear.


(** C48.  Constant data has zero gradient. *)
Theorem C48_constant_has_zero_gradient :
  forall data lon lat n m LO LA c,
  (2 <= n)%nat -> (2 <= m)%nat ->
  finite_data data n m (fun _ _ => c) -> finite_grid lon lat n m LO LA ->
  exists r0 r1, gradient data (Some lon) (Some lat) = Ok [r0; r1] /\
    forall i j, (i < n)%nat -> (j < m)%nat ->
      (slope n (fun k => arc_series (LA k j)) i <> 0 -> cell r0 i j = Fin 0) /\
      (slope m (fun k => lon_arc (LO i k) (LA i k)) j <> 0 -> cell r1 i j = Fin 0).
Proof. exact c48_constant. Qed.
Print Assumptions C48_constant_has_zero_gradient.


(** C48.  Data affine in arc length along a column (row) gives exactly the slope, edges included. *)
Theorem C48_affine_exact :
  forall data lon lat n m LO LA D c s,
  (2 <= n)%nat -> (2 <= m)%nat ->
  finite_data data n m D -> finite_grid lon lat n m LO LA ->
  exists r0 r1, gradient data (Some lon) (Some lat) = Ok [r0; r1] /\
    (forall j, (j < m)%nat -> (forall i, (i < n)%nat -> D i j = c + s * arc_series (LA i j)) ->
       forall i, (i < n)%nat -> slope n (fun k => arc_series (LA k j)) i <> 0 -> cell r0 i j = Fin s) /\
    (forall i, (i < n)%nat -> (forall j, (j < m)%nat -> D i j = c + s * lon_arc (LO i j) (LA i j)) ->
       forall j, (j < m)%nat -> slope m (fun k => lon_arc (LO i k) (LA i k)) j <> 0 -> cell r1 i j = Fin s).
Proof. exact c48_affine. Qed.
Print Assumptions C48_affine_exact.


(** C48.  For any data, NaN included, a value depends only on the point and its neighbours along the axis. *)
Theorem C48_local :
  forall data data' lon lat n m LO LA i j,
  (2 <= n)%nat -> (2 <= m)%nat ->
  vshape data = [n; m] -> vshape data' = [n; m] -> finite_grid lon lat n m LO LA -> (i < n)%nat -> (j < m)%nat ->
  exists r0 r1 s0 s1, gradient data (Some lon) (Some lat) = Ok [r0; r1] /\ gradient data' (Some lon) (Some lat) = Ok [s0; s1] /\
    ((forall k, (k < n)%nat -> (i <= k + 1)%nat -> (k <= i + 1)%nat -> cell data k j = cell data' k j) -> cell r0 i j = cell s0 i j) /\
    ((forall k, (k < m)%nat -> (j <= k + 1)%nat -> (k <= j + 1)%nat -> cell data i k = cell data' i k) -> cell r1 i j = cell s1 i j).
Proof. exact c48_local. Qed.
Print Assumptions C48_local.

Definition ex_lon : arr fl := vec NaN (map Fin [0; 10; 20]).
Definition ex_lat : arr fl := vec NaN (map Fin [90; 0; -45; -90]).
Definition ex_LO (j : nat) : R := nth j [0; 10; 20] 0.
Definition ex_LA (i : nat) : R := nth i [90; 0; -45; -90] 0.
Example ex_grid : finite_grid ex_lon ex_lat 4 3 (fun _ j => ex_LO j) (fun i _ => ex_LA i).
Proof.
  apply grid_1d; try reflexivity. intros i j Hi Hj.
  do 4 (destruct i as [|i]; [do 3 (destruct j as [|j]; [split; reflexivity|]); lia|]). lia.
Qed.
Example ex_range : forall i, (i < 4)%nat -> -90 <= ex_LA i <= 90.
Proof. intros i Hi. unfold ex_LA. do 4 (destruct i as [|i]; [cbn; lra|]). lia. Qed.
Example ex_lat_monotone : strictly_monotone 4 ex_LA.
Proof. right. intros [|[|[|[|i]]]] [|[|[|[|j]]]]; intros; try lia; unfold ex_LA; cbn; lra. Qed.
Example ex_lon_monotone : strictly_monotone 3 ex_LO.
Proof. left. intros [|[|[|i]]] [|[|[|j]]]; intros; try lia; unfold ex_LO; cbn; lra. Qed.
Definition ex_data : val fl := VNd (mkArr [4; 3]%nat (fun i => Fin (INR (nth 0 i 0%nat) + 7 * INR (nth 1 i 0%nat)))).
Example ex_finite : finite_data ex_data 4 3 (fun i j => INR i + 7 * INR j).
Proof. split; [reflexivity|]. intros. reflexivity. Qed.
(** along the equator the eastward difference is 7 over ten degrees of arc, at the edge and inside *)
Example C48_example : exists r0 r1, gradient ex_data (Some ex_lon) (Some ex_lat) = Ok [r0; r1] /\
  cell r1 1 0 = Fin (7 / (lon_arc 10 0 - lon_arc 0 0)) /\ cell r1 1 1 = Fin (7 / ((lon_arc 20 0 - lon_arc 0 0) / 2)).
Proof.
  destruct (c48_value ex_data ex_lon ex_lat 4 3 _ _ _ ltac:(lia) ltac:(lia) ex_finite ex_grid) as (r0 & r1 & E & _ & _ & C).
  exists r0, r1. split; [exact E|].
  destruct (c48_distances_nonzero ex_lon ex_lat 4 3 ex_LO ex_LA ltac:(lia) ltac:(lia) ex_grid ex_range ex_lat_monotone ex_lon_monotone 1 0 ltac:(lia) ltac:(lia)) as [_ Z0].
  destruct (c48_distances_nonzero ex_lon ex_lat 4 3 ex_LO ex_LA ltac:(lia) ltac:(lia) ex_grid ex_range ex_lat_monotone ex_lon_monotone 1 1 ltac:(lia) ltac:(lia)) as [_ Z1].
  destruct (C 1 0 ltac:(lia) ltac:(lia))%nat as [_ C0]. destruct (C 1 1 ltac:(lia) ltac:(lia))%nat as [_ C1].
  rewrite (C0 Z0), (C1 Z1). unfold slope. cbn [Nat.eqb Nat.sub Nat.add]. unfold ex_LO, ex_LA. cbn [nth INR].
  split; apply (f_equal Fin).
  - replace (1 + 7 * 1 - (1 + 7 * 0)) with 7 by lra. reflexivity.
  - replace ((1 + 7 * (1 + 1) - (1 + 7 * 0)) / 2) with 7 by lra. reflexivity.
Qed.


(** C49.  Point (i,j) uses lat[i] and lon[j]: 1-D coordinates and their 2-D expansion give equal results. *)
Theorem C49_1d_and_2d_coordinates_agree :
  forall (T : Type) (N : Num T) (data : val T) lon lat lon2 lat2 n m,
  (2 <= n)%nat -> (2 <= m)%nat -> vshape data = [n; m] ->
    shp lon = [m] -> shp lat = [n] -> shp lon2 = [n; m] -> shp lat2 = [n; m] ->
    (forall i j, (i < n)%nat -> (j < m)%nat -> get lon2 [i; j] = get lon [j] /\ get lat2 [i; j] = get lat [i]) ->
    exists r0 r1 s0 s1, gradient data (Some lon) (Some lat) = Ok [r0; r1] /\ gradient data (Some lon2) (Some lat2) = Ok [s0; s1] /\
      vshape r0 = [n; m] /\ vshape r1 = [n; m] /\ vshape s0 = [n; m] /\ vshape s1 = [n; m] /\
      forall i j, (i < n)%nat -> (j < m)%nat -> cell r0 i j = cell s0 i j /\ cell r1 i j = cell s1 i j.
Proof. exact @c49_1d_is_2d. Qed.
Print Assumptions C49_1d_and_2d_coordinates_agree.


(** C49.  Anything but two 1-D or two 2-D coordinate arrays raises ValueError. *)
Theorem C49_mixed_ranks_rejected :
  forall (T : Type) (N : Num T) (data : val T) lon lat,
  ~ (ndim lon = 1%nat /\ ndim lat = 1%nat) -> ~ (ndim lon = 2%nat /\ ndim lat = 2%nat) ->
    gradient data (Some lon) (Some lat) = Err ValueError.
Proof. exact @c49_mixed_ranks. Qed.
Print Assumptions C49_mixed_ranks_rejected.


(** C49.  Omitted coordinates are those named lat and lon of the labelled data; one given alone is ignored. *)
Theorem C49_coordinates_from_data :
  forall (T : Type) (N : Num T) d (sub : bool) lo la lon lat,
  slookup "lon" (coords d) = Some lo -> slookup "lat" (coords d) = Some la -> lon = None \/ lat = None ->
    gradient (if sub then VSubDa d else VDa d : val T) lon lat
    = gradient (if sub then VSubDa d else VDa d) (Some (cdat lo)) (Some (cdat la)).
Proof. exact @c49_coords_from_data. Qed.
Print Assumptions C49_coordinates_from_data.


(** C49.  No coordinates anywhere: a bare Exception for plain arrays, AttributeError for labelled ones. *)
Theorem C49_missing_coordinates :
  forall (T : Type) (N : Num T) lon lat,
  lon = None \/ lat = None ->
    (forall a : arr T, gradient (VNd a) lon lat = Err BareException) /\
    (forall d : da T, slookup "lon" (coords d) = None \/ slookup "lat" (coords d) = None ->
       (lon = None \/ exists l, lon = Some l /\ (ndim l = 1%nat \/ ndim l = 2%nat)) ->
       gradient (VDa d) lon lat = Err AttributeError).
Proof. exact @c49_no_coords. Qed.
Print Assumptions C49_missing_coordinates.


(** C49.  Fewer than two points along an axis raises ValueError. *)
Theorem C49_axis_too_small :
  forall (T : Type) (N : Num T) (data : val T) lon lat n m,
  (shp lon = [m] /\ shp lat = [n] \/ shp lon = [n; m] /\ shp lat = [n; m]) -> (n < 2 \/ m < 2)%nat ->
    gradient data (Some lon) (Some lat) = Err ValueError.
Proof. exact @c49_too_small. Qed.
Print Assumptions C49_axis_too_small.


(** C49.  Adding a constant to every longitude changes nothing. *)
Theorem C49_longitude_origin_irrelevant :
  forall data lon lat lon' n m LO LA s,
  (2 <= n)%nat -> (2 <= m)%nat -> vshape data = [n; m] ->
  shp lon = [m] -> shp lon' = [m] -> shp lat = [n] ->
  (forall j, (j < m)%nat -> get lon [j] = Fin (LO j) /\ get lon' [j] = Fin (LO j + s)) ->
  (forall i, (i < n)%nat -> get lat [i] = Fin (LA i)) ->
  exists r0 r1 s0 s1, gradient data (Some lon) (Some lat) = Ok [r0; r1] /\ gradient data (Some lon') (Some lat) = Ok [s0; s1] /\
    forall i j, (i < n)%nat -> (j < m)%nat -> cell r0 i j = cell s0 i j /\ cell r1 i j = cell s1 i j.
Proof. exact c49_lon_origin. Qed.
Print Assumptions C49_longitude_origin_irrelevant.

(** C49.  A DataArray gives two DataArrays labelled with the longitude and latitude of every point, without attributes
    or name; anything else gives two plain arrays. *)
Theorem C49_result_labels :
  forall (T : Type) (N : Num T) (data : val T) lon lat rs,
  gradient data (Some lon) (Some lat) = Ok rs ->
  match data with
  | VDa _ => exists a b, rs = [VDa a; VDa b] /\ grad_labelled lon lat a /\ grad_labelled lon lat b
  | _ => exists a b, rs = [VNd a; VNd b]
  end.
Proof. exact @gradient_labels. Qed.
Print Assumptions C49_result_labels.

Example C49_labels_example : exists rs,
  gradient (VDa (mkDa ["lat"; "lon"]%string (mkArr [4; 3]%nat (fun i => Fin (INR (nth 0 i 0%nat)))) [] [] None)) (Some ex_lon) (Some ex_lat) = Ok rs.
Proof.
  destruct (c48_value (VDa (mkDa ["lat"; "lon"]%string (mkArr [4; 3]%nat (fun i => Fin (INR (nth 0 i 0%nat)))) [] [] None))
    ex_lon ex_lat 4 3 _ _ (fun i _ => INR i) ltac:(lia) ltac:(lia) ltac:(split; reflexivity) ex_grid) as (r0 & r1 & E & _). eauto.
Qed.

Example C49_example_2d : let lon2 := mkArr [4; 3]%nat (fun i => get ex_lon [nth 1 i 0%nat]) in
  let lat2 := mkArr [4; 3]%nat (fun i => get ex_lat [nth 0 i 0%nat]) in
  (forall i j, (i < 4)%nat -> (j < 3)%nat -> get lon2 [i; j] = get ex_lon [j] /\ get lat2 [i; j] = get ex_lat [i]) /\
  gradient ex_data (Some lon2) (Some ex_lat) = Err ValueError.
Proof. split; [intros; split; reflexivity|reflexivity]. Qed.
Example C49_example_coords : exists d : da fl, slookup "lon" (coords d) = Some (mkCoord ["lon"%string] ex_lon) /\
  slookup "lat" (coords d) = Some (mkCoord ["lat"%string] ex_lat) /\ vshape (VDa d) = [4; 3]%nat.
Proof.
  exists (mkDa ["lat"; "lon"]%string (afull [4; 3]%nat (Fin 1))
    [("lat"%string, mkCoord ["lat"%string] ex_lat); ("lon"%string, mkCoord ["lon"%string] ex_lon)] [] None). repeat split.
Qed.


(** C50.  The radius is even and the meridian arc odd in latitude. *)
Theorem C50_series_parity :
  forall x,
  rad_lat_wgs84 (Fin (- x)) = rad_lat_wgs84 (Fin x) /\
  arc_lat_wgs84 (Fin (- x)) = nneg (arc_lat_wgs84 (Fin x)).
Proof. exact c50_odd_even. Qed.
Print Assumptions C50_series_parity.


(** C50.  The derivative of the meridian arc per degree is the radius times pi/180, to 2e-18, at every latitude. *)
Theorem C50_arc_derivative_is_radius :
  exists A r, (forall x, arc_lat_wgs84 (Fin x) = Fin (A x) /\ rad_lat_wgs84 (Fin x) = Fin (r x)) /\
  forall x, -90 <= x <= 90 -> exists a', derivable_pt_lim A x a' /\ Rabs (a' - r x * (PI / 180)) <= 2 / 10 ^ 18.
Proof. exact c50_derivative. Qed.
Print Assumptions C50_arc_derivative_is_radius.


(** C50.  The longitude arc is linear in longitude, zero at Greenwich and symmetric about the equator. *)
Theorem C50_arc_lon_linear :
  forall l1 l2 a b la,
  arc_lon_wgs84 (Fin (a * l1 + b * l2)) (Fin la)
    = nadd (nmul (Fin a) (arc_lon_wgs84 (Fin l1) (Fin la))) (nmul (Fin b) (arc_lon_wgs84 (Fin l2) (Fin la))) /\
  arc_lon_wgs84 (Fin 0) (Fin la) = Fin 0 /\
  arc_lon_wgs84 (Fin l1) (Fin (- la)) = arc_lon_wgs84 (Fin l1) (Fin la).
Proof. exact c50_lon_linear. Qed.
Print Assumptions C50_arc_lon_linear.

Example C50_example : exists r, rad_lat_wgs84 (Fin 0) = Fin r /\ r = 6378137.
Proof.
  eexists. split; [rewrite GradSeries.rad_fin; reflexivity|].
  unfold GradSeries.rad_series. rewrite <- PolyZ.tsum_rev. unfold PolyZ.tsum, rad_terms. cbn [rev app fold_right PolyZ.rterm].
  rewrite ?(pow_i 2), ?(pow_i 4) by lia.
  repeat match goal with |- context [0 ^ S ?n] => rewrite (pow_i (S n)) by lia end.
  rewrite !Rmult_0_r. change (10 ^ Z.of_nat 1)%Z with 10%Z. rewrite pow_O. lra.
Qed.


(** C71.  Between the poles the radius series is within 2e-11 m of sqrt(a^2 cos^2 + b^2 sin^2) for the WGS84 axes. *)
Theorem C71_radius_matches_documentation :
  forall x,
  -90 <= x <= 90 -> exists r, rad_lat_wgs84 (Fin x) = Fin r /\ Rabs (r - ellipsoid_radius x) <= 2 / 10 ^ 11.
Proof. exact c71_radius. Qed.
Print Assumptions C71_radius_matches_documentation.


(** C71.  The meridian arc between any two latitudes is the integral of that radius, within 4e-13 m per degree. *)
Theorem C71_meridian_arc_is_integral :
  forall x y,
  -90 <= x -> x <= y -> y <= 90 ->
  exists ax ay, arc_lat_wgs84 (Fin x) = Fin ax /\ arc_lat_wgs84 (Fin y) = Fin ay /\
    Rabs (ay - ax - RInt (fun t => PI / 180 * ellipsoid_radius t) x y) <= 4 / 10 ^ 13 * (y - x).
Proof. exact c71_arc. Qed.
Print Assumptions C71_meridian_arc_is_integral.


(** C71.  The longitude arc is within 2e-10 m of lon * cos(lat) * radius (angles in radians). *)
Theorem C71_longitude_arc_matches_documentation :
  forall lo la,
  -360 <= lo <= 360 -> -90 <= la <= 90 ->
  exists v, arc_lon_wgs84 (Fin lo) (Fin la) = Fin v /\
    Rabs (v - radians lo * cos (radians la) * ellipsoid_radius la) <= 2 / 10 ^ 10.
Proof. exact c71_lon_arc. Qed.
Print Assumptions C71_longitude_arc_matches_documentation.

Example C71_example : ellipsoid_radius 0 = 6378137 /\ -90 <= 0 <= 90.
Proof.
  split; [|lra]. unfold ellipsoid_radius, radians. rewrite Rmult_0_l, cos_0, sin_0, Rmult_0_r.
  replace ((equatorial * 1) ^ 2 + 0 ^ 2) with (6378137 * 6378137) by (unfold equatorial; ring). apply sqrt_square. lra.
Qed.


(** C72.  The documentation admits n-dimensional data.  With a leading (time) axis the first result is the time difference
    over meridian distances and the second the latitude difference over longitude distances: data depending on latitude
    only gets a zero latitude derivative and a nonzero longitude derivative. *)
Theorem C72_leading_axis_refuted :
  forall (a : arr fl) lon lat t n m LO LA F,
  (2 <= t)%nat -> (2 <= n)%nat -> (2 <= m)%nat ->
  shp a = [t; n; m] -> (forall k i j, (k < t)%nat -> (i < n)%nat -> (j < m)%nat -> get a [k; i; j] = Fin (F i)) ->
  finite_grid lon lat n m (fun _ j => LO j) (fun i _ => LA i) ->
  (forall i, (i < n)%nat -> -90 <= LA i <= 90) -> strictly_monotone n LA -> strictly_monotone m LO ->
  exists r0 r1, gradient (VNd a) (Some lon) (Some lat) = Ok [VNd r0; VNd r1] /\
    forall k i j, (k < t)%nat -> (i < n)%nat -> (j < m)%nat ->
      get r0 [k; i; j] = Fin 0 /\
      get r1 [k; i; j] = Fin (slope n F i / slope m (fun q => lon_arc (LO q) (LA i)) j).
Proof. exact c72_lemma. Qed.
Print Assumptions C72_leading_axis_refuted.


(** C72.  A labelled array with a leading axis raises ValueError. *)
Theorem C72_leading_axis_labelled :
  forall (d : da fl) lon lat t n m LO LA,
  (2 <= t)%nat -> (2 <= n)%nat -> (2 <= m)%nat ->
  shp (dat d) = [t; n; m] -> finite_grid lon lat n m LO LA -> gradient (VDa d) (Some lon) (Some lat) = Err ValueError.
Proof. exact c72_labelled. Qed.
Print Assumptions C72_leading_axis_labelled.

Example C72_example : exists a : arr fl, shp a = [2; 4; 3]%nat /\
  forall k i j, (k < 2)%nat -> (i < 4)%nat -> (j < 3)%nat -> get a [k; i; j] = Fin (INR i).
Proof. exists (mkArr [2; 4; 3]%nat (fun i => Fin (INR (nth 1 i 0%nat)))). split; [reflexivity|]. intros. reflexivity. Qed.


(** C102.  Intended: gradient accepts an xarray.Dataset, which it names as a supported type.  Refuted: it never returns, and where a
    variable of the Dataset on its own would work the call raises TypeError. *)
Theorem C102_dataset_refuted :
  forall (T : Type) (N : Num T),
  (forall (cs : list (string * coordv T)) lon lat rs, gradient_ds cs lon lat <> Ok rs) /\
  forall (d : da T) lon lat rs, gradient (VDa d) lon lat = Ok rs -> gradient_ds (coords d) lon lat = Err TypeError.
Proof. intros T N. split; [exact gradient_ds_fails|exact gradient_ds_lemma]. Qed.
Print Assumptions C102_dataset_refuted.

(** C102.  Coordinate arrays that are not both 1-D or both 2-D raise ValueError for a Dataset too. *)
Theorem C102_dataset_ranks :
  forall (T : Type) (N : Num T) (cs : list (string * coordv T)) (lon lat : arr T),
  ~ (List.length (shp lon) = 1%nat /\ List.length (shp lat) = 1%nat) -> ~ (List.length (shp lon) = 2%nat /\ List.length (shp lat) = 2%nat) ->
  gradient_ds cs (Some lon) (Some lat) = Err ValueError.
Proof. intros T N. exact gradient_ds_ranks. Qed.
Print Assumptions C102_dataset_ranks.
Example C102_ranks_example : gradient_ds [] (Some (mkArr [2; 2; 2]%nat (fun _ => Fin 1))) (Some ex_lat) = Err ValueError.
Proof. apply C102_dataset_ranks; cbn; intros [A B]; discriminate. Qed.

Example C102_example : exists rs,
  gradient (VDa (mkDa ["lat"; "lon"]%string (mkArr [4; 3]%nat (fun i => Fin (INR (nth 0 i 0%nat)))) [] [] None)) (Some ex_lon) (Some ex_lat) = Ok rs /\
  gradient_ds [] (Some ex_lon) (Some ex_lat) = Err TypeError.
Proof. destruct C49_labels_example as [rs E]. exists rs. split; [exact E|]. exact (gradient_ds_lemma _ _ _ _ E). Qed.
