(** C51, C52, C73-C76: spherical harmonics.  [Y] is scipy's sph_harm_y, constrained only by [sph_oracle]; [areas]
    is scipy's Voronoi cell area, unconstrained; [old] is whether scipy is older than 1.15. *)
From Coq Require Import Reals List Bool Arith ZArith Lra Lia String.
From Verif Require Import PyBase Num NumFacts Arr ArrFacts XrFacts CellFacts Hybrid SpecSum SpecGrad SpecSph Spherical SphFacts SphApi SphMore SphExample.
Import ListNotations.
Local Open Scope R_scope.
Local Open Scope string_scope.

(** C51.  Every position below the count belongs to exactly one harmonic (n, m) with m <= n <= max_harm. *)
Theorem C51_positions_unique :
  forall L k,
  (k < count L)%nat -> exists! nm : nat * nat, (snd nm <= fst nm <= L)%nat /\ pos (fst nm) (snd nm) = k.
Proof. exact c51_positions. Qed.
Print Assumptions C51_positions_unique.


(** C51.  Every harmonic has a position. *)
Theorem C51_positions_inside :
  forall L n m,
  (m <= n <= L)%nat -> (pos n m < count L)%nat.
Proof. exact c51_positions_lt. Qed.
Print Assumptions C51_positions_inside.


(** C51.  decomposition returns (L+1)(L+2)/2 entries of the kind of the data; entry n(n+1)/2+m is the weighted
    coefficient of harmonic (n, m), evaluated at polar angle phi and azimuth theta of the same grid point. *)
Theorem C51_decomposition_entries :
  forall (Y : nat -> nat -> fl -> fl -> fl * fl) (Yr Yi : nat -> nat -> R -> R -> R) (y0 : R), sph_oracle Y Yr Yi y0 ->
  forall old data w th ph L a b f ww t p,
  same_grid a b data w th ph -> field data a b f -> field w a b ww -> field th a b t -> field ph a b p ->
    gridsum a b ww <> 0 ->
    exists z, decomposition Y old data w th ph L = Ok z /\ zkind data z /\ zlen z = [count L] /\
      forall n m, (m <= n <= L)%nat ->
        zcell z (pos n m) = (Fin (coefficient a b ww f (fun i j => Yr n m (p i j) (t i j)) y0 m),
                             Fin (coefficient a b ww f (fun i j => Yi n m (p i j) (t i j)) y0 m)).
Proof. exact c51_decomposition. Qed.
Print Assumptions C51_decomposition_entries.


(** C51.  recomposition reads the entries in the same order and evaluates the expansion at every grid point. *)
Theorem C51_recomposition_values :
  forall (Y : nat -> nat -> fl -> fl -> fl * fl) (Yr Yi : nat -> nat -> R -> R -> R) (y0 : R), sph_oracle Y Yr Yi y0 ->
  forall old z th ph L a b t p cr ci,
  angles_fit z th ph a b -> zlen z = [count L] -> field th a b t -> field ph a b p ->
    (forall n m, (m <= n <= L)%nat -> zcell z (pos n m) = (Fin (cr n m), Fin (ci n m))) ->
    exists r, recomposition Y old z th ph L = Ok r /\ rkind z th r a b /\
      field r a b (fun i j => harmsum L (fun n m => Yr n m (p i j) (t i j) * cr n m + Yi n m (p i j) (t i j) * ci n m)).
Proof. exact c51_recomposition. Qed.
Print Assumptions C51_recomposition_values.

Example C51_example : count 23 = 300%nat /\ pos 23 23 = 299%nat /\ sph_oracle o_Y o_Yr o_Yi o_y0 /\
  forall f, same_grid 2 3 (o_grid f) (o_grid o_w) (o_grid o_theta) (o_grid o_phi).
Proof. split; [reflexivity|]. split; [reflexivity|]. split; [exact o_oracle|exact o_same_grid]. Qed.
(** labelled data with labelled angles and plain (Voronoi) weights *)
Definition ex_da (f : nat -> nat -> R) : da fl :=
  mkDa ["lat"; "lon"] (mkArr [2; 3]%nat (fun i => Fin (f (nth 0 i 0%nat) (nth 1 i 0%nat))))
    [("lat", mkCoord ["lat"] (vec NaN [Fin 0; Fin 1])); ("lon", mkCoord ["lon"] (vec NaN [Fin 0; Fin 1; Fin 2]))] [] None.
Example C51_example_labelled f : same_grid 2 3 (VDa (ex_da f)) (o_grid o_w) (VDa (ex_da o_theta)) (VDa (ex_da o_phi)) /\
  ~ In "harmonic" (dims (ex_da o_theta)).
Proof.
  split; [|cbn; intuition discriminate]. eapply sg_xr; try reflexivity.
  - split; [reflexivity|]. repeat constructor; cbn; intuition discriminate.
  - split; [reflexivity|]. split; [reflexivity|]. intros nm c [E|[E|[]]]; injection E as <- <-; cbn.
    + repeat constructor. exists 0%nat. auto.
    + repeat constructor. exists 1%nat. auto.
  - split; [reflexivity|]. split; [reflexivity|]. intros nm c [E|[E|[]]]; injection E as <- <-; cbn.
    + repeat constructor. exists 0%nat. auto.
    + repeat constructor. exists 1%nat. auto.
Qed.


(** C52.  When the weights integrate products of two harmonics up to degree L exactly, recomposing the decomposition
    of any field spanned by those harmonics returns the field. *)
Theorem C52_roundtrip_band_limited :
  forall (Y : nat -> nat -> fl -> fl -> fl * fl) (Yr Yi : nat -> nat -> R -> R -> R) (y0 : R), sph_oracle Y Yr Yi y0 ->
  forall old data w th ph L a b f ww t p A B,
  same_grid a b data w th ph -> field data a b f -> field w a b ww -> field th a b t -> field ph a b p ->
    (forall d, data = VDa d -> exists t, th = VDa t /\ ~ In "harmonic"%string (dims t) /\ plain_labels ph) ->
    gridsum a b ww <> 0 ->
    exact_quadrature L a b ww y0 (fun n m i j => Yr n m (p i j) (t i j)) (fun n m i j => Yi n m (p i j) (t i j)) ->
    (forall i j, (i < a)%nat -> (j < b)%nat ->
       f i j = harmsum L (fun n m => Yr n m (p i j) (t i j) * A n m + Yi n m (p i j) (t i j) * B n m)) ->
    exists z r, decomposition Y old data w th ph L = Ok z /\ recomposition Y old z th ph L = Ok r /\ field r a b f.
Proof. exact c52_roundtrip. Qed.
Print Assumptions C52_roundtrip_band_limited.


(** C52.  decomposition is linear in the data. *)
Theorem C52_decomposition_linear :
  forall (Y : nat -> nat -> fl -> fl -> fl * fl) (Yr Yi : nat -> nat -> R -> R -> R) (y0 : R), sph_oracle Y Yr Yi y0 ->
  forall old data1 data2 data3 w th ph L a b f g ww t p al be,
  same_grid a b data1 w th ph -> same_grid a b data2 w th ph -> same_grid a b data3 w th ph ->
    field data1 a b f -> field data2 a b g -> field data3 a b (fun i j => al * f i j + be * g i j) ->
    field w a b ww -> field th a b t -> field ph a b p -> gridsum a b ww <> 0 ->
    exists z1 z2 z3, decomposition Y old data1 w th ph L = Ok z1 /\ decomposition Y old data2 w th ph L = Ok z2 /\
      decomposition Y old data3 w th ph L = Ok z3 /\
      forall k, (k < count L)%nat -> exists x1 y1 x2 y2, zcell z1 k = (Fin x1, Fin y1) /\ zcell z2 k = (Fin x2, Fin y2) /\
        zcell z3 k = (Fin (al * x1 + be * x2), Fin (al * y1 + be * y2)).
Proof. exact c52_linear. Qed.
Print Assumptions C52_decomposition_linear.


(** C52.  Multiplying all weights by a common non-zero factor changes nothing (unit of area is irrelevant). *)
Theorem C52_weights_scale_free :
  forall (Y : nat -> nat -> fl -> fl -> fl * fl) (Yr Yi : nat -> nat -> R -> R -> R) (y0 : R), sph_oracle Y Yr Yi y0 ->
  forall old data w1 w2 th ph L a b f ww t p c,
  same_grid a b data w1 th ph -> same_grid a b data w2 th ph -> field data a b f ->
    field w1 a b ww -> field w2 a b (fun i j => c * ww i j) -> c <> 0 -> field th a b t -> field ph a b p -> gridsum a b ww <> 0 ->
    exists z1 z2, decomposition Y old data w1 th ph L = Ok z1 /\ decomposition Y old data w2 th ph L = Ok z2 /\
      forall k, (k < count L)%nat -> zcell z2 k = zcell z1 k.
Proof. exact c52_rescale. Qed.
Print Assumptions C52_weights_scale_free.

(** the octahedron grid satisfies the hypotheses with the true harmonics of degree 0 and 1 *)
Example C52_example : sph_oracle o_Y o_Yr o_Yi o_y0 /\ gridsum 2 3 o_w <> 0 /\
  exact_quadrature 1 2 3 o_w o_y0 (fun n m i j => o_Yr n m (o_phi i j) (o_theta i j)) (fun n m i j => o_Yi n m (o_phi i j) (o_theta i j)) /\
  forall f, field (o_grid f) 2 3 f.
Proof. split; [exact o_oracle|]. split; [rewrite o_total; lra|]. split; [exact o_exact|exact o_field]. Qed.


(** C73.  With max_harm = 0 the round trip returns the weighted mean of the field at every point, whatever the
    quadrature. *)
Theorem C73_lowest_harmonic_is_weighted_mean :
  forall (Y : nat -> nat -> fl -> fl -> fl * fl) (Yr Yi : nat -> nat -> R -> R -> R) (y0 : R), sph_oracle Y Yr Yi y0 ->
  forall old data w th ph a b f ww t p,
  same_grid a b data w th ph -> field data a b f -> field w a b ww -> field th a b t -> field ph a b p ->
    (forall d, data = VDa d -> exists t, th = VDa t /\ ~ In "harmonic"%string (dims t) /\ plain_labels ph) ->
    gridsum a b ww <> 0 ->
    exists z r, decomposition Y old data w th ph 0 = Ok z /\ recomposition Y old z th ph 0 = Ok r /\
      field r a b (fun _ _ => gridsum a b (fun i j => ww i j * f i j) / gridsum a b ww).
Proof. exact c73_mean. Qed.
Print Assumptions C73_lowest_harmonic_is_weighted_mean.

Example C73_example : gridsum 2 3 (fun i j => o_w i j * (if Nat.eqb i 0 then 6 else 0)) / gridsum 2 3 o_w = 3.
Proof. rewrite o_total. unfold gridsum, o_w. cbn [bigsum Nat.eqb]. lra. Qed.


(** C74.  Plain arrays: one NaN in the data makes every coefficient NaN. *)
Theorem C74_missing_value_plain :
  forall (Y : nat -> nat -> fl -> fl -> fl * fl) (Yr Yi : nat -> nat -> R -> R -> R) (y0 : R), sph_oracle Y Yr Yi y0 ->
  forall old d x th ph L a b t p i j,
  same_grid a b (VNd d) (VNd x) th ph -> field th a b t -> field ph a b p ->
    (i < a)%nat -> (j < b)%nat -> cell (VNd d) i j = NaN ->
    exists z, decomposition Y old (VNd d) (VNd x) th ph L = Ok z /\ zlen z = [count L] /\
      forall k, (k < count L)%nat -> zcell z k = (NaN, NaN).
Proof. exact c74_plain. Qed.
Print Assumptions C74_missing_value_plain.


(** C74.  Labelled arrays: NaN cells count as zeros while their weight still enters the normalisation. *)
Theorem C74_missing_value_labelled :
  forall (Y : nat -> nat -> fl -> fl -> fl * fl) (Yr Yi : nat -> nat -> R -> R -> R) (y0 : R), sph_oracle Y Yr Yi y0 ->
  forall old data w th ph L a b f ww t p (valid : nat -> nat -> bool) d,
  data = VDa d ->
    same_grid a b data w th ph -> (forall i j, (i < a)%nat -> (j < b)%nat -> cell data i j = if valid i j then Fin (f i j) else NaN) ->
    field w a b ww -> field th a b t -> field ph a b p -> gridsum a b ww <> 0 ->
    exists z, decomposition Y old data w th ph L = Ok z /\ zlen z = [count L] /\
      forall n m, (m <= n <= L)%nat ->
        zcell z (pos n m) = (Fin (coefficient a b ww (fun i j => if valid i j then f i j else 0) (fun i j => Yr n m (p i j) (t i j)) y0 m),
                             Fin (coefficient a b ww (fun i j => if valid i j then f i j else 0) (fun i j => Yi n m (p i j) (t i j)) y0 m)).
Proof. exact c74_labelled. Qed.
Print Assumptions C74_missing_value_labelled.

(** so half of the cells missing halves the mean of a constant field *)
Example C74_example : coefficient 2 3 o_w (fun i j => if Nat.eqb i 0 then 8 else 0) (fun _ _ => o_y0) o_y0 0 = 4 / o_y0.
Proof.
  unfold coefficient. rewrite o_total. unfold gridsum, o_w. cbn [bigsum Nat.eqb mult]. assert (H := o_y0_pos). field. lra.
Qed.


(** C75.  Plain arrays: a coefficient vector of the wrong length (other than 1) is rejected. *)
Theorem C75_wrong_count_rejected_plain :
  forall (Y : nat -> nat -> fl -> fl -> fl * fl),
  forall old c th ph L a b l,
  shp c = [l] -> vshape th = [a; b] -> vshape ph = [a; b] -> th <> VOther -> ph <> VOther ->
    l <> count L -> l <> 1%nat -> L <> 0%nat -> recomposition Y old (ZNd c) th ph L = Err ValueError.
Proof. exact c75_plain_rejects. Qed.
Print Assumptions C75_wrong_count_rejected_plain.


(** C75 is false for a single coefficient: it is silently used for every harmonic. *)
Theorem C75_single_coefficient_refuted :
  forall (Y : nat -> nat -> fl -> fl -> fl * fl) (Yr Yi : nat -> nat -> R -> R -> R) (y0 : R), sph_oracle Y Yr Yi y0 ->
  forall old c th ph L a b t p cr ci,
  shp c = [1%nat] -> vshape th = [a; b] -> vshape ph = [a; b] -> th <> VOther -> ph <> VOther ->
    field th a b t -> field ph a b p -> get c [0%nat] = (Fin cr, Fin ci) ->
    exists r, recomposition Y old (ZNd c) th ph L = Ok r /\
      field r a b (fun i j => harmsum L (fun n m => Yr n m (p i j) (t i j) * cr + Yi n m (p i j) (t i j) * ci)).
Proof. exact c75_plain_single. Qed.
Print Assumptions C75_single_coefficient_refuted.


(** C75.  Labelled arrays: any wrong length is rejected. *)
Theorem C75_wrong_count_rejected_labelled :
  forall (Y : nat -> nat -> fl -> fl -> fl * fl),
  forall c th ph L a b l,
  shp (dat c) = [l] -> shp (dat th) = [a; b] -> List.length (dims th) = 2%nat -> vshape ph = [a; b] -> plain_labels ph -> ~ In "harmonic"%string (dims th) ->
    l <> count L -> recomposition Y false (ZDa c) (VDa th) ph L = Err ValueError.
Proof. exact c75_labelled. Qed.
Print Assumptions C75_wrong_count_rejected_labelled.

Example C75_example : (5 <> count 2)%nat /\ (5 <> 1)%nat /\ (2 <> 0)%nat.
Proof. cbn. lia. Qed.


(** C76.  scale_voronoi hands scipy the unit-sphere point of every grid point in row-major order and puts the area of
    cell i*b+j at grid position (i, j). *)
Theorem C76_voronoi_weights :
  forall (areas : list (fl * fl * fl) -> res (list fl)) th ph a b t p A,
  (is_nd th = true /\ is_nd ph = true \/ exists d, th = VDa d /\ is_xr ph = true) ->
  vshape th = [a; b] -> vshape ph = [a; b] -> field th a b t -> field ph a b p ->
  areas (map (fun ij => let '(x, y, z) := sphere_point (t (nth 0 ij 0%nat) (nth 1 ij 0%nat)) (p (nth 0 ij 0%nat) (nth 1 ij 0%nat)) in
                        (Fin x, Fin y, Fin z)) (all_idx [a; b])) = Ok A -> List.length A = (a * b)%nat ->
  exists x, scale_voronoi areas th ph = Ok (VNd x) /\ shp x = [a; b] /\
    forall i j, (i < a)%nat -> (j < b)%nat -> get x [i; j] = nth (i * b + j) A NaN.
Proof. exact c76_lemma. Qed.
Print Assumptions C76_voronoi_weights.


(** C76.  The result is a plain array of the shape of theta even for labelled angles. *)
Theorem C76_voronoi_always_plain :
  forall (areas : list (fl * fl * fl) -> res (list fl)) th ph r,
  scale_voronoi areas th ph = Ok r -> exists x, r = VNd x /\ shp x = vshape th.
Proof. exact c76_always_plain. Qed.
Print Assumptions C76_voronoi_always_plain.

Example C76_example : exists x, scale_voronoi (fun l => Ok (map (fun _ => Fin (4 * PI / 6)) l)) (o_grid o_theta) (o_grid o_phi) = Ok (VNd x) /\
  forall i j, (i < 2)%nat -> (j < 3)%nat -> get x [i; j] = Fin (4 * PI / 6).
Proof.
  edestruct (c76_lemma (fun l => Ok (map (fun _ => Fin (4 * PI / 6)) l)) (o_grid o_theta) (o_grid o_phi) 2 3 o_theta o_phi) as (x & E & S & G);
    try reflexivity; try apply o_field.
  - left. split; reflexivity.
  - exists x. split; [exact E|]. intros i j Hi Hj. rewrite G by auto.
    destruct i as [|[|i]]; [| |lia]; destruct j as [|[|[|j]]]; try lia; reflexivity.
Qed.
(** the points lie on the unit sphere *)
Example C76_points theta phi : let '(x, y, z) := sphere_point theta phi in x * x + y * y + z * z = 1.
Proof. unfold sphere_point. pose proof (sin2_cos2 theta) as H1. pose proof (sin2_cos2 phi) as H2. unfold Rsqr in *. nra. Qed.

