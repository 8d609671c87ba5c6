(** C106: what the spherical functions do with arrays that are not two-dimensional grids.  [Y] is scipy's sph_harm_y,
    constrained only by [sph_oracle] where values are claimed; [old] is whether scipy is older than 1.15. *)
From Coq Require Import Reals List Bool Arith ZArith Lra Lia String.
From Verif Require Import PyBase Num NumFacts Arr ArrFacts XrFacts CellFacts Hybrid SpecSum SpecGrad SpecSph Spherical SphFacts SphApi SphMore SphExample SphRank.
Import ListNotations.
Local Open Scope R_scope.
Local Open Scope string_scope.

(** C106.  Weights without two axes (scalars, one weight per latitude, a list of points) are rejected, whatever the
    other arguments are. *)
Theorem C106_weights_need_two_axes :
  forall (Y : nat -> nat -> fl -> fl -> fl * fl) old data w th ph L,
  (List.length (vshape w) < 2)%nat -> decomposition Y old data w th ph L = Err ValueError.
Proof. exact (c106_weights_rank (T := fl)). Qed.
Print Assumptions C106_weights_need_two_axes.

(** C106.  Plain weights that would enlarge labelled data are rejected. *)
Theorem C106_enlarging_weights_rejected :
  forall (Y : nat -> nat -> fl -> fl -> fl * fl) old (d : da fl) (w : arr fl) th ph L s,
  List.length (shp w) = 2%nat -> bshape (shp (dat d)) (shp w) = Some s -> s <> shp (dat d) ->
    decomposition Y old (VDa d) (VNd w) th ph L = Err ValueError.
Proof. exact (c106_enlarge (T := fl)). Qed.
Print Assumptions C106_enlarging_weights_rejected.

(** C106.  Labelled weights for plain data are rejected. *)
Theorem C106_labelled_weights_rejected :
  forall (Y : nat -> nat -> fl -> fl -> fl * fl) old (d : arr fl) (w : da fl) th ph L,
  List.length (shp (dat w)) = 2%nat -> decomposition Y old (VNd d) (VDa w) th ph L = Err ValueError.
Proof. exact (c106_labelled (T := fl)). Qed.
Print Assumptions C106_labelled_weights_rejected.

(** C106 is false for plain weights with one entry per row, per column or for the whole grid: they are accepted and
    spread over the grid, but the total is taken before spreading, so every coefficient is too large by the number
    of grid points each weight stands for. *)
Theorem C106_spread_weights_refuted :
  forall (Y : nat -> nat -> fl -> fl -> fl * fl) (Yr Yi : nat -> nat -> R -> R -> R) (y0 : R), sph_oracle Y Yr Yi y0 ->
  forall old data w th ph L a b f ww t p k,
  data_grid a b data th ph -> stands_for a b w ww k ->
    field data a b f -> field th a b t -> field ph a b p -> gridsum a b ww <> 0 ->
    exists z, decomposition Y old data (VNd w) th ph L = Ok z /\ zkind data z /\ zlen z = [count L] /\
      forall n m, (m <= n <= L)%nat ->
        zcell z (pos n m) = (Fin (INR k * coefficient a b ww f (fun i j => Yr n m (p i j) (t i j)) y0 m),
                             Fin (INR k * coefficient a b ww f (fun i j => Yi n m (p i j) (t i j)) y0 m)).
Proof. exact c106_spread. Qed.
Print Assumptions C106_spread_weights_refuted.

(** C106.  Labelled one-dimensional data never gives coefficients (scipy 1.15 or newer), and labelled
    one-dimensional angles never give a recomposition. *)
Theorem C106_labelled_points_rejected :
  forall (Y : nat -> nat -> fl -> fl -> fl * fl),
  (forall (d : da fl) w th ph L n, shp (dat d) = [n] -> List.length (dims d) = 1%nat -> List.length (vshape w) = 2%nat -> w <> VOther ->
     forall z, decomposition Y false (VDa d) w th ph L <> Ok z) /\
  (forall old (c : da (fl * fl)) (th : da fl) ph L r, (List.length (dims th) < 2)%nat -> recomposition Y old (ZDa c) (VDa th) ph L <> Ok r).
Proof. intros Y. split; [exact (c106_points_xr Y)|exact (c106_recompose_points_xr Y)]. Qed.
Print Assumptions C106_labelled_points_rejected.

(** C106.  Plain coefficients can be evaluated at a list of points; the result carries an extra leading axis of
    length one. *)
Theorem C106_recomposition_points :
  forall (Y : nat -> nat -> fl -> fl -> fl * fl) (Yr Yi : nat -> nat -> R -> R -> R) (y0 : R), sph_oracle Y Yr Yi y0 ->
  forall old c th ph L n (t p : nat -> R) cr ci,
  shp c = [count L] -> vshape th = [n] -> vshape ph = [n] -> th <> VOther -> ph <> VOther ->
    (forall i, (i < n)%nat -> get (vvalues th) [i] = Fin (t i) /\ get (vvalues ph) [i] = Fin (p i)) ->
    (forall k m, (m <= k <= L)%nat -> get c [pos k m] = (Fin (cr k m), Fin (ci k m))) ->
    exists r, recomposition Y old (ZNd c) th ph L = Ok (VNd r) /\ shp r = [1%nat; n] /\
      forall i, (i < n)%nat -> get r [0%nat; i] = Fin (harmsum L (fun k m => Yr k m (p i) (t i) * cr k m + Yi k m (p i) (t i) * ci k m)).
Proof. exact c106_points. Qed.
Print Assumptions C106_recomposition_points.

(** C106.  scale_voronoi needs two-dimensional angles. *)
Theorem C106_voronoi_needs_two_axes :
  forall (areas : list (fl * fl * fl) -> res (list fl)) th ph,
  (is_nd th = true \/ (exists d, th = VDa d) /\ is_xr ph = true) -> (List.length (vshape th) < 2)%nat ->
    scale_voronoi areas th ph = Err IndexError.
Proof. exact c106_voronoi_rank. Qed.
Print Assumptions C106_voronoi_needs_two_axes.

(** two rows of three points, one weight per row: the lowest coefficient of the field 1 is three times too large *)
Definition ex_rows : arr fl := mkArr [2; 1]%nat (fun i => Fin (match nth 0 i 0%nat with O => 1 | _ => 3 end)).
Example C106_example_hypotheses :
  data_grid 2 3 (o_grid (fun _ _ => 1)) (o_grid o_theta) (o_grid o_phi) /\
  stands_for 2 3 ex_rows (fun i _ => match i with O => 1 | _ => 3 end) 3 /\
  gridsum 2 3 (fun i _ => match i with O => 1 | _ => 3 end) <> 0 /\
  field (o_grid (fun _ _ => 1)) 2 3 (fun _ _ => 1).
Proof.
  split; [cbn; repeat split; discriminate|]. split.
  - apply (sf_rows 2 3 ex_rows _ (fun i => match i with O => 1 | _ => 3 end)); [reflexivity| |reflexivity]. intros i Hi. reflexivity.
  - split; [unfold gridsum; cbn [bigsum]; lra|]. intros i j Hi Hj. reflexivity.
Qed.
Example C106_example : exists z, decomposition o_Y false (o_grid (fun _ _ => 1)) (VNd ex_rows) (o_grid o_theta) (o_grid o_phi) 0 = Ok z /\
  exists im, zcell z 0%nat = (Fin (3 / o_y0), Fin im).
Proof.
  destruct C106_example_hypotheses as (H1 & H2 & H3 & H4).
  destruct (C106_spread_weights_refuted o_Y o_Yr o_Yi o_y0 o_oracle false _ _ _ _ 0%nat 2%nat 3%nat _ _ o_theta o_phi 3%nat H1 H2 H4
    ltac:(intros i j Hi Hj; reflexivity) ltac:(intros i j Hi Hj; reflexivity) H3) as (z & Ez & _ & _ & Gz).
  exists z. split; auto. eexists. pose proof (Gz 0%nat 0%nat ltac:(lia)) as G. change (pos 0 0) with 0%nat in G. rewrite G. apply f_equal2; [|reflexivity]. f_equal.
  pose proof o_y0_pos as P. unfold coefficient. unfold gridsum. cbn [bigsum mult Nat.eqb].
  assert (E : forall x y, o_Yr 0 0 x y = o_y0) by (intros; reflexivity). rewrite !E. cbn [INR]. field. lra.
Qed.
(** one weight per latitude as a vector is rejected; so are weights that turn one row of labelled data into two *)
Example C106_example_rejected th ph :
  decomposition o_Y false (o_grid (fun _ _ => 1)) (VNd (vec NaN [Fin 1; Fin 3])) th ph 4 = Err ValueError /\
  decomposition o_Y false (VDa (mkDa ["lat"; "lon"] (mkArr [1; 3]%nat (fun _ => Fin 1)) [] [] None)) (o_grid o_w) th ph 4 = Err ValueError.
Proof.
  split; [apply C106_weights_need_two_axes; cbn; lia|]. apply (C106_enlarging_weights_rejected _ _ _ _ _ _ _ [2; 3]%nat); cbn; try reflexivity; try lia. discriminate.
Qed.
