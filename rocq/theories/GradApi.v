(** Facts about gradient on finite data. *)
From Coq Require Import Reals List Bool Arith ZArith Lra Lia String.
From Verif Require Import PyBase PyFacts Num NumFacts Arr ArrFacts CellFacts Hybrid Gradient PolyZ SpecGrad GradSeries GradFacts.
Import ListNotations.
Local Open Scope R_scope.

(** the longitude arc built from the series of gradient.py *)
Definition lon_arc (lo la : R) : R := rad_series la * cos (la * rd2r) * lo * rd2r.

Lemma arc_lon_fin lo la : arc_lon_wgs84 (Fin lo) (Fin la) = Fin (lon_arc lo la).
Proof. unfold arc_lon_wgs84. rewrite rad_fin, d2r_fin. reflexivity. Qed.

Lemma two_nz : 2 <> 0. Proof. lra. Qed.
Lemma nslope_fin n f i : nslope n (fun k => Fin (f k)) i = Fin (slope n f i).
Proof.
  unfold nslope, slope. destruct (Nat.eqb i 0); [reflexivity|]. destruct (Nat.eqb i (n - 1)); [reflexivity|].
  change (ofZ 2) with (Fin 2). change (@ndiv fl NumFl) with fl_div.
  change (nsub (Fin (f (i + 1)%nat)) (Fin (f (i - 1)%nat))) with (Fin (f (i + 1)%nat - f (i - 1)%nat)).
  now rewrite fdiv_fin by apply two_nz.
Qed.
Lemma slope_ext n f g i : (2 <= n)%nat -> (i < n)%nat -> (forall k, (k < n)%nat -> f k = g k) -> slope n f i = slope n g i.
Proof.
  intros Hn Hi H. unfold slope. destruct (Nat.eqb_spec i 0); [now rewrite !H by lia|].
  destruct (Nat.eqb_spec i (n - 1)); rewrite !H by lia; reflexivity.
Qed.
Lemma slope_lin n a b f g i : slope n (fun k => a * f k + b * g k) i = a * slope n f i + b * slope n g i.
Proof. unfold slope. destruct (Nat.eqb i 0); [lra|]. destruct (Nat.eqb i (n - 1)); lra. Qed.
Lemma slope_const n c i : slope n (fun _ => c) i = 0.
Proof. unfold slope. destruct (Nat.eqb i 0); [lra|]. destruct (Nat.eqb i (n - 1)); lra. Qed.
Lemma slope_affine n c s g i : slope n (fun k => c + s * g k) i = s * slope n g i.
Proof. unfold slope. destruct (Nat.eqb i 0); [lra|]. destruct (Nat.eqb i (n - 1)); lra. Qed.
Lemma slope_monotone n f i : (2 <= n)%nat -> (i < n)%nat -> strictly_monotone n f -> slope n f i <> 0.
Proof.
  intros Hn Hi [H|H]; unfold slope; (destruct (Nat.eqb_spec i 0) as [->|]; [|destruct (Nat.eqb_spec i (n - 1)) as [->|]]).
  - specialize (H 0%nat 1%nat). lra || (assert (f 0%nat < f 1%nat) by (apply H; lia); lra).
  - assert (f (n - 1 - 1)%nat < f (n - 1)%nat) by (apply H; lia). lra.
  - assert (f (i - 1)%nat < f (i + 1)%nat) by (apply H; lia). lra.
  - assert (f 1%nat < f 0%nat) by (apply H; lia). lra.
  - assert (f (n - 1)%nat < f (n - 1 - 1)%nat) by (apply H; lia). lra.
  - assert (f (i + 1)%nat < f (i - 1)%nat) by (apply H; lia). lra.
Qed.

(** ** the arc series increases with latitude *)
Lemma arc_increasing x y : -90 <= x -> x < y -> y <= 90 -> arc_series x < arc_series y.
Proof.
  intros Hx Hxy Hy.
  destruct (MVT_cor2 arc_series arc_deriv x y Hxy) as [c [Hc Hcc]].
  { intros. apply arc_deriv_ok. }
  assert (Hr : -90 <= c <= 90) by lra.
  pose proof (arc_deriv_close c Hr) as H1. pose proof (rad_pos c Hr) as H2. pose proof rd2r_range as H3.
  assert (H4 : 100 <= rd2r * rad_series c) by nra.
  assert (H5 : 0 < arc_deriv c) by (apply Rabs_le_between in H1; lra).
  assert (0 < arc_deriv c * (y - x)) by (apply Rmult_lt_0_compat; lra). lra.
Qed.
Lemma arc_strict n f : (forall i, (i < n)%nat -> -90 <= f i <= 90) -> strictly_monotone n f ->
  strictly_monotone n (fun k => arc_series (f k)).
Proof.
  intros Hr [H|H]; [left|right]; intros i j Hij Hj; specialize (H i j Hij Hj);
    pose proof (Hr i ltac:(lia)); pose proof (Hr j Hj); apply arc_increasing; lra.
Qed.
(** the parallel has positive length at every latitude, the poles included: 90 * d2r stays below pi/2 *)
Lemma parallel_pos la : -90 <= la <= 90 -> 0 < rad_series la * cos (la * rd2r) * rd2r.
Proof.
  intros H. pose proof (rad_pos la H). pose proof rd2r_range. pose proof d2r_PI as [Hp _].
  assert (0 < cos (la * rd2r)) by (apply cos_gt_0; nra).
  apply Rmult_lt_0_compat; [|lra]. apply Rmult_lt_0_compat; lra.
Qed.
Lemma lon_arc_strict m f la : -90 <= la <= 90 -> strictly_monotone m f -> strictly_monotone m (fun k => lon_arc (f k) la).
Proof.
  intros Hla H. pose proof (parallel_pos la Hla) as Hp.
  assert (E : forall k, lon_arc (f k) la = rad_series la * cos (la * rd2r) * rd2r * f k) by (intros; unfold lon_arc; ring).
  destruct H as [H|H]; [left|right]; intros i j Hij Hj; specialize (H i j Hij Hj); rewrite !E; now apply Rmult_lt_compat_l.
Qed.

(** ** values on finite data *)
Definition finite_grid (lon lat : arr fl) (n m : nat) (LO LA : nat -> nat -> R) : Prop :=
  grid_of lon lat n m (fun i j => Fin (LO i j)) (fun i j => Fin (LA i j)).
Definition finite_data (data : val fl) (n m : nat) (D : nat -> nat -> R) : Prop :=
  vshape data = [n; m] /\ forall i j, (i < n)%nat -> (j < m)%nat -> cell data i j = Fin (D i j).

Lemma data_values (data : val fl) n m : vshape data = [n; m] ->
  data <> VOther /\ shp (values_of data) = [n; m] /\ forall i j, get (values_of data) [i; j] = cell data i j.
Proof. destruct data; cbn; intros H; try discriminate; repeat split; auto; discriminate. Qed.

Lemma gradient_fl (data : val fl) lon lat n m LO LA : (2 <= n)%nat -> (2 <= m)%nat ->
  vshape data = [n; m] -> finite_grid lon lat n m LO LA ->
  exists r0 r1, gradient data (Some lon) (Some lat) = Ok [r0; r1] /\ vshape r0 = [n; m] /\ vshape r1 = [n; m] /\
    forall i j, (i < n)%nat -> (j < m)%nat ->
      cell r0 i j = fl_div (nslope n (fun k => cell data k j) i) (Fin (slope n (fun k => arc_series (LA k j)) i)) /\
      cell r1 i j = fl_div (nslope m (fun k => cell data i k) j) (Fin (slope m (fun k => lon_arc (LO i k) (LA i k)) j)).
Proof.
  intros Hn Hm Hd G. destruct (data_values data n m Hd) as (H1 & H2 & H3).
  destruct (gradient_ok data lon lat n m _ _ H1 H2 Hn Hm G) as (r0 & r1 & E & S0 & S1 & C0 & C1 & _).
  exists r0, r1. repeat (split; [assumption|]). intros i j Hi Hj. rewrite (C0 i j Hi Hj), (C1 i j Hi Hj).
  split; change (@ndiv fl NumFl) with fl_div; f_equal.
  - apply nslope_ext; auto.
  - rewrite <- nslope_fin. apply nslope_ext; auto. intros. now rewrite arc_fin.
  - apply nslope_ext; auto.
  - rewrite <- nslope_fin. apply nslope_ext; auto. intros. now rewrite arc_lon_fin.
Qed.

Lemma c48_value data lon lat n m LO LA D : (2 <= n)%nat -> (2 <= m)%nat -> finite_data data n m D -> finite_grid lon lat n m LO LA ->
  exists r0 r1, gradient data (Some lon) (Some lat) = Ok [r0; r1] /\ vshape r0 = [n; m] /\ vshape r1 = [n; m] /\
    forall i j, (i < n)%nat -> (j < m)%nat ->
      (slope n (fun k => arc_series (LA k j)) i <> 0 ->
       cell r0 i j = Fin (slope n (fun k => D k j) i / slope n (fun k => arc_series (LA k j)) i)) /\
      (slope m (fun k => lon_arc (LO i k) (LA i k)) j <> 0 ->
       cell r1 i j = Fin (slope m (fun k => D i k) j / slope m (fun k => lon_arc (LO i k) (LA i k)) j)).
Proof.
  intros Hn Hm [Hd HD] G. destruct (gradient_fl data lon lat n m LO LA Hn Hm Hd G) as (r0 & r1 & E & S0 & S1 & C).
  exists r0, r1. repeat (split; [assumption|]). intros i j Hi Hj. destruct (C i j Hi Hj) as [-> ->]. split; intros Hz.
  - rewrite (nslope_ext n _ (fun k => Fin (D k j))), nslope_fin, fdiv_fin; auto.
  - rewrite (nslope_ext m _ (fun k => Fin (D i k))), nslope_fin, fdiv_fin; auto.
Qed.

(** on a rectilinear grid with strictly monotone coordinates no distance vanishes *)
Lemma c48_distances_nonzero lon lat n m LO LA : (2 <= n)%nat -> (2 <= m)%nat ->
  finite_grid lon lat n m (fun _ j => LO j) (fun i _ => LA i) ->
  (forall i, (i < n)%nat -> -90 <= LA i <= 90) -> strictly_monotone n LA -> strictly_monotone m LO ->
  forall i j, (i < n)%nat -> (j < m)%nat ->
    slope n (fun k => arc_series (LA k)) i <> 0 /\ slope m (fun k => lon_arc (LO k) (LA i)) j <> 0.
Proof.
  intros Hn Hm _ Hla Sla Slo i j Hi Hj. split; apply slope_monotone; auto.
  - now apply arc_strict.
  - apply lon_arc_strict; auto.
Qed.

Lemma c48_linear data data1 data2 lon lat n m LO LA D1 D2 a b : (2 <= n)%nat -> (2 <= m)%nat ->
  finite_data data1 n m D1 -> finite_data data2 n m D2 ->
  finite_data data n m (fun i j => a * D1 i j + b * D2 i j) ->
  finite_grid lon lat n m LO LA ->
  exists r0 r1 u0 u1 v0 v1, gradient data (Some lon) (Some lat) = Ok [r0; r1] /\
    gradient data1 (Some lon) (Some lat) = Ok [u0; u1] /\ gradient data2 (Some lon) (Some lat) = Ok [v0; v1] /\
    forall i j, (i < n)%nat -> (j < m)%nat ->
      (slope n (fun k => arc_series (LA k j)) i <> 0 ->
       cell r0 i j = nadd (nmul (Fin a) (cell u0 i j)) (nmul (Fin b) (cell v0 i j))) /\
      (slope m (fun k => lon_arc (LO i k) (LA i k)) j <> 0 ->
       cell r1 i j = nadd (nmul (Fin a) (cell u1 i j)) (nmul (Fin b) (cell v1 i j))).
Proof.
  intros Hn Hm H1 H2 H G.
  destruct (c48_value data lon lat n m LO LA _ Hn Hm H G) as (r0 & r1 & E & _ & _ & C).
  destruct (c48_value data1 lon lat n m LO LA _ Hn Hm H1 G) as (u0 & u1 & E1 & _ & _ & C1).
  destruct (c48_value data2 lon lat n m LO LA _ Hn Hm H2 G) as (v0 & v1 & E2 & _ & _ & C2).
  exists r0, r1, u0, u1, v0, v1. repeat (split; [assumption|]). intros i j Hi Hj.
  destruct (C i j Hi Hj) as [A0 A1]. destruct (C1 i j Hi Hj) as [B0 B1]. destruct (C2 i j Hi Hj) as [F0 F1].
  split; intros Hz.
  - rewrite A0, B0, F0 by auto. apply (f_equal Fin). rewrite slope_lin. field. auto.
  - rewrite A1, B1, F1 by auto. apply (f_equal Fin). rewrite (slope_lin m a b (fun k => D1 i k) (fun k => D2 i k)). field. auto.
Qed.

Lemma c48_constant data lon lat n m LO LA c : (2 <= n)%nat -> (2 <= m)%nat ->
  finite_data data n m (fun _ _ => c) -> finite_grid lon lat n m LO LA ->
  exists r0 r1, gradient data (Some lon) (Some lat) = Ok [r0; r1] /\
    forall i j, (i < n)%nat -> (j < m)%nat ->
      (slope n (fun k => arc_series (LA k j)) i <> 0 -> cell r0 i j = Fin 0) /\
      (slope m (fun k => lon_arc (LO i k) (LA i k)) j <> 0 -> cell r1 i j = Fin 0).
Proof.
  intros Hn Hm H G. destruct (c48_value data lon lat n m LO LA _ Hn Hm H G) as (r0 & r1 & E & _ & _ & C).
  exists r0, r1. split; [assumption|]. intros i j Hi Hj. destruct (C i j Hi Hj) as [A0 A1].
  split; intros Hz; [rewrite A0|rewrite A1]; auto; rewrite slope_const; f_equal; unfold Rdiv; ring.
Qed.

(** data affine in the distance along a meridian or a parallel: the slope comes out exactly, edges included *)
Lemma c48_affine data lon lat n m LO LA D c s : (2 <= n)%nat -> (2 <= m)%nat ->
  finite_data data n m D -> finite_grid lon lat n m LO LA ->
  exists r0 r1, gradient data (Some lon) (Some lat) = Ok [r0; r1] /\
    (forall j, (j < m)%nat -> (forall i, (i < n)%nat -> D i j = c + s * arc_series (LA i j)) ->
       forall i, (i < n)%nat -> slope n (fun k => arc_series (LA k j)) i <> 0 -> cell r0 i j = Fin s) /\
    (forall i, (i < n)%nat -> (forall j, (j < m)%nat -> D i j = c + s * lon_arc (LO i j) (LA i j)) ->
       forall j, (j < m)%nat -> slope m (fun k => lon_arc (LO i k) (LA i k)) j <> 0 -> cell r1 i j = Fin s).
Proof.
  intros Hn Hm H G. destruct (c48_value data lon lat n m LO LA _ Hn Hm H G) as (r0 & r1 & E & _ & _ & C).
  exists r0, r1. split; [assumption|]. split.
  - intros j Hj HD i Hi Hz. destruct (C i j Hi Hj) as [A0 _]. rewrite A0 by auto. f_equal.
    rewrite (slope_ext n (fun k => D k j) (fun k => c + s * arc_series (LA k j))) by auto. rewrite slope_affine. now field.
  - intros i Hi HD j Hj Hz. destruct (C i j Hi Hj) as [_ A1]. rewrite A1 by auto. f_equal.
    rewrite (slope_ext m (fun k => D i k) (fun k => c + s * lon_arc (LO i k) (LA i k))) by auto. rewrite slope_affine. now field.
Qed.

(** any values, NaN included: a point depends only on itself and its neighbours along the axis *)
Lemma c48_local data data' lon lat n m LO LA i j : (2 <= n)%nat -> (2 <= m)%nat ->
  vshape data = [n; m] -> vshape data' = [n; m] -> finite_grid lon lat n m LO LA -> (i < n)%nat -> (j < m)%nat ->
  exists r0 r1 s0 s1, gradient data (Some lon) (Some lat) = Ok [r0; r1] /\ gradient data' (Some lon) (Some lat) = Ok [s0; s1] /\
    ((forall k, (k < n)%nat -> (i <= k + 1)%nat -> (k <= i + 1)%nat -> cell data k j = cell data' k j) -> cell r0 i j = cell s0 i j) /\
    ((forall k, (k < m)%nat -> (j <= k + 1)%nat -> (k <= j + 1)%nat -> cell data i k = cell data' i k) -> cell r1 i j = cell s1 i j).
Proof.
  intros Hn Hm Hd Hd' G Hi Hj. destruct (gradient_fl data lon lat n m LO LA Hn Hm Hd G) as (r0 & r1 & E & _ & _ & C).
  destruct (gradient_fl data' lon lat n m LO LA Hn Hm Hd' G) as (s0 & s1 & E' & _ & _ & C').
  exists r0, r1, s0, s1. repeat (split; [assumption|]). destruct (C i j Hi Hj) as [-> ->]. destruct (C' i j Hi Hj) as [-> ->].
  split; intros H; f_equal; unfold nslope.
  - destruct (Nat.eqb_spec i 0); [now rewrite !H by lia|]. destruct (Nat.eqb_spec i (n - 1)); rewrite !H by lia; reflexivity.
  - destruct (Nat.eqb_spec j 0); [now rewrite !H by lia|]. destruct (Nat.eqb_spec j (m - 1)); rewrite !H by lia; reflexivity.
Qed.

(** ** C49: coordinates *)
Section C49.
  Context {T : Type} {N : Num T}.
  Lemma c49_1d_is_2d (data : val T) lon lat lon2 lat2 n m : (2 <= n)%nat -> (2 <= m)%nat -> vshape data = [n; m] ->
    shp lon = [m] -> shp lat = [n] -> shp lon2 = [n; m] -> shp lat2 = [n; m] ->
    (forall i j, (i < n)%nat -> (j < m)%nat -> get lon2 [i; j] = get lon [j] /\ get lat2 [i; j] = get lat [i]) ->
    exists r0 r1 s0 s1, gradient data (Some lon) (Some lat) = Ok [r0; r1] /\ gradient data (Some lon2) (Some lat2) = Ok [s0; s1] /\
      vshape r0 = [n; m] /\ vshape r1 = [n; m] /\ vshape s0 = [n; m] /\ vshape s1 = [n; m] /\
      forall i j, (i < n)%nat -> (j < m)%nat -> cell r0 i j = cell s0 i j /\ cell r1 i j = cell s1 i j.
  Proof.
    intros Hn Hm Hd S1 S2 S3 S4 V.
    assert (Hv : data <> VOther /\ shp (values_of data) = [n; m]).
    { destruct data; cbn in *; try discriminate; split; auto; discriminate. }
    destruct Hv as [H1 H2].
    destruct (gradient_ok data lon lat n m (fun _ j => get lon [j]) (fun i _ => get lat [i]) H1 H2 Hn Hm)
      as (r0 & r1 & E & T0 & T1 & C0 & C1 & _).
    { apply grid_1d; auto. }
    destruct (gradient_ok data lon2 lat2 n m (fun _ j => get lon [j]) (fun i _ => get lat [i]) H1 H2 Hn Hm)
      as (s0 & s1 & E' & T0' & T1' & C0' & C1' & _).
    { apply grid_2d; auto. intros i j Hi Hj. destruct (V i j Hi Hj) as [-> ->]. auto. }
    exists r0, r1, s0, s1. repeat (split; [assumption|]). intros i j Hi Hj.
    rewrite C0, C1, C0', C1' by auto. auto.
  Qed.
  Lemma c49_mixed_ranks (data : val T) lon lat :
    ~ (ndim lon = 1%nat /\ ndim lat = 1%nat) -> ~ (ndim lon = 2%nat /\ ndim lat = 2%nat) ->
    gradient data (Some lon) (Some lat) = Err ValueError.
  Proof.
    intros H1 H2. unfold gradient. cbn [bind fst snd oget].
    destruct (Nat.eqb_spec (ndim lon) 1) as [E|E], (Nat.eqb_spec (ndim lon) 2) as [F|F],
      (Nat.eqb_spec (ndim lat) 1) as [E'|E'], (Nat.eqb_spec (ndim lat) 2) as [F'|F'];
      cbn; try reflexivity; exfalso; tauto.
  Qed.
  (** omitted coordinates come from the data; a coordinate given alone is ignored *)
  Lemma c49_coords_from_data d (sub : bool) lo la lon lat :
    slookup "lon" (coords d) = Some lo -> slookup "lat" (coords d) = Some la -> lon = None \/ lat = None ->
    gradient (if sub then VSubDa d else VDa d : val T) lon lat
    = gradient (if sub then VSubDa d else VDa d) (Some (cdat lo)) (Some (cdat la)).
  Proof.
    intros H1 H2 H. unfold gradient. destruct sub; rewrite H1, H2; destruct lon, lat; try reflexivity; destruct H; discriminate.
  Qed.
  (** and their absence is an error, of a different type for the two containers *)
  Lemma c49_no_coords lon lat : lon = None \/ lat = None ->
    (forall a : arr T, gradient (VNd a) lon lat = Err BareException) /\
    (forall d : da T, slookup "lon" (coords d) = None \/ slookup "lat" (coords d) = None ->
       (lon = None \/ exists l, lon = Some l /\ (ndim l = 1%nat \/ ndim l = 2%nat)) ->
       gradient (VDa d) lon lat = Err AttributeError).
  Proof.
    intros H. split.
    - intros a. unfold gradient. destruct lon, lat; try reflexivity; destruct H; discriminate.
    - intros d Hd Hl. unfold gradient.
      replace (match slookup "lat" (coords d) with
               | Some la => match slookup "lon" (coords d) with Some lo => (Some (cdat lo), Some (cdat la)) | None => (lon, lat) end
               | None => (lon, lat) end) with (lon, lat).
      2:{ destruct Hd as [-> | ->]; [destruct (slookup "lat" (coords d)); reflexivity|reflexivity]. }
      destruct lon as [l|], lat as [l'|]; try (destruct H; discriminate); cbn [bind fst snd oget]; try reflexivity.
      destruct Hl as [Hl|(l0 & El & Hr)]; [discriminate|]. injection El as <-.
      destruct Hr as [-> | ->]; reflexivity.
  Qed.
  Lemma c49_too_small (data : val T) lon lat n m :
    (shp lon = [m] /\ shp lat = [n] \/ shp lon = [n; m] /\ shp lat = [n; m]) -> (n < 2 \/ m < 2)%nat ->
    gradient data (Some lon) (Some lat) = Err ValueError.
  Proof.
    intros Hs H. unfold gradient. cbn [bind fst snd oget].
    assert (exists lo2 la2, (if Nat.eqb (ndim lon) 1 && Nat.eqb (ndim lat) 1 then Ok (meshgrid lon lat)
             else if Nat.eqb (ndim lon) 2 && Nat.eqb (ndim lat) 2 then Ok (lon, lat)
             else Err ValueError) = Ok (lo2, la2) /\ shp lo2 = [n; m] /\ shp la2 = [n; m] /\
             (Nat.eqb (ndim lon) 1 || Nat.eqb (ndim lon) 2) = true) as (lo2 & la2 & E & S1 & S2 & R).
    { destruct Hs as [[G1 G2]|[G1 G2]]; unfold ndim; rewrite G1, G2; cbn [List.length Nat.eqb andb].
      - do 2 eexists. split; [reflexivity|]. cbn [shp]. rewrite G1, G2. auto.
      - do 2 eexists. split; [reflexivity|]. auto. }
    rewrite R. cbn [negb]. rewrite E. cbn [bind].
    destruct (np_map2_same arc_lon_wgs84 lo2 la2) as (a1 & E1 & T1 & _); [now rewrite S1, S2|]. rewrite E1. cbn [bind].
    unfold np_gradient_axis at 1. cbn [amap shp]. rewrite S2. cbn [nth].
    destruct (Nat.ltb_spec n 2); [reflexivity|]. cbn [bind].
    unfold np_gradient_axis at 1. rewrite T1, S1. cbn [nth].
    destruct (Nat.ltb_spec m 2); [reflexivity|]. lia.
  Qed.
End C49.

(** shifting all longitudes by a constant changes nothing (rectilinear grids): [-180,180] and [0,360] agree *)
Lemma c49_lon_origin data lon lat lon' n m LO LA s : (2 <= n)%nat -> (2 <= m)%nat -> vshape data = [n; m] ->
  shp lon = [m] -> shp lon' = [m] -> shp lat = [n] ->
  (forall j, (j < m)%nat -> get lon [j] = Fin (LO j) /\ get lon' [j] = Fin (LO j + s)) ->
  (forall i, (i < n)%nat -> get lat [i] = Fin (LA i)) ->
  exists r0 r1 s0 s1, gradient data (Some lon) (Some lat) = Ok [r0; r1] /\ gradient data (Some lon') (Some lat) = Ok [s0; s1] /\
    forall i j, (i < n)%nat -> (j < m)%nat -> cell r0 i j = cell s0 i j /\ cell r1 i j = cell s1 i j.
Proof.
  intros Hn Hm Hd S1 S2 S3 V1 V2.
  destruct (gradient_fl data lon lat n m (fun _ j => LO j) (fun i _ => LA i) Hn Hm Hd) as (r0 & r1 & E & _ & _ & C).
  { apply grid_1d; auto. intros i j Hi Hj. rewrite (proj1 (V1 j Hj)), (V2 i Hi). auto. }
  destruct (gradient_fl data lon' lat n m (fun _ j => LO j + s) (fun i _ => LA i) Hn Hm Hd) as (s0 & s1 & E' & _ & _ & C').
  { apply grid_1d; auto. intros i j Hi Hj. rewrite (proj2 (V1 j Hj)), (V2 i Hi). auto. }
  exists r0, r1, s0, s1. repeat (split; [assumption|]). intros i j Hi Hj.
  destruct (C i j Hi Hj) as [-> ->]. destruct (C' i j Hi Hj) as [-> ->]. split; [reflexivity|]. f_equal. f_equal.
  unfold slope, lon_arc. destruct (Nat.eqb j 0); [ring|]. destruct (Nat.eqb j (m - 1)); [ring|]. field.
Qed.
