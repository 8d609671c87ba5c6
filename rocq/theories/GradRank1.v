(** gradient on data whose rank or shape is not that of the grid. *)
From Coq Require Import Reals List Bool Arith ZArith Lra Lia String.
From Verif Require Import PyBase PyFacts Num NumFacts Arr ArrFacts CellFacts Hybrid Gradient PolyZ SpecGrad GradSeries GradFacts GradApi GradRank3.
Import ListNotations.
Local Open Scope nat_scope.

Section Gen.
  Context {T : Type} {N : Num T}.

  (** everything before the data are looked at *)
  Lemma gradient_grid data lon lat n m LO LA : data <> VOther -> 2 <= n -> 2 <= m -> grid_of lon lat n m LO LA ->
    exists lo2 la2 x0 x1, shp lo2 = [n; m] /\ shp la2 = [n; m] /\ shp x0 = [n; m] /\ shp x1 = [n; m] /\
      (forall i j, i < n -> j < m -> get x0 [i; j] = nslope n (fun q => arc_lat_wgs84 (LA q j)) i /\
                                     get x1 [i; j] = nslope m (fun q => arc_lon_wgs84 (LO i q) (LA i q)) j) /\
      gradient data (Some lon) (Some lat) =
        do g <- np_gradient2 (values_of data) ;;
        do axis0grad <- np_map2 ndiv (fst g) x0 ;;
        do axis1grad <- np_map2 ndiv (snd g) x1 ;;
        match data with
        | VDa _ =>
            do a <- wrap_xy axis0grad lo2 la2 ;;
            do b <- wrap_xy axis1grad lo2 la2 ;;
            Ok [VDa a; VDa b]
        | _ => Ok [VNd axis0grad; VNd axis1grad]
        end.
  Proof.
    intros Hd Hn Hm G.
    assert (exists lo2 la2, (if Nat.eqb (ndim lon) 1 && Nat.eqb (ndim lat) 1 then Ok (meshgrid lon lat)
             else if Nat.eqb (ndim lon) 2 && Nat.eqb (ndim lat) 2 then Ok (lon, lat)
             else Err ValueError) = Ok (lo2, la2) /\ shp lo2 = [n; m] /\ shp la2 = [n; m] /\
             (forall i j, i < n -> j < m -> get lo2 [i; j] = LO i j /\ get la2 [i; j] = LA i j) /\
             (Nat.eqb (ndim lon) 1 || Nat.eqb (ndim lon) 2) = true) as (lo2 & la2 & E & S1 & S2 & V & R).
    { destruct G as [G1 G2 G3|G1 G2 G3]; unfold ndim; rewrite G1, G2; cbn [List.length Nat.eqb andb].
      - do 2 eexists. split; [reflexivity|]. cbn [shp]. rewrite G1, G2. split; [reflexivity|]. split; [reflexivity|].
        split; [|reflexivity]. intros i j Hi Hj. destruct (G3 i j Hi Hj) as [-> ->]. split; reflexivity.
      - do 2 eexists. split; [reflexivity|]. split; [assumption|]. split; [assumption|].
        split; [|reflexivity]. intros i j Hi Hj. destruct (G3 i j Hi Hj) as [-> ->]. split; reflexivity. }
    unfold gradient. cbn [bind fst snd oget]. rewrite R. cbn [negb]. rewrite E. cbn [bind].
    destruct (np_map2_same arc_lon_wgs84 lo2 la2) as (a1 & E1 & T1 & V1); [now rewrite S1, S2|]. rewrite E1. cbn [bind].
    destruct (grad_axis0 (amap arc_lat_wgs84 la2) n m S2 Hn) as (x0 & E2 & T2 & V2). rewrite E2. cbn [bind].
    assert (T1' : shp a1 = [n; m]) by (rewrite T1; exact S1).
    destruct (grad_axis1 a1 n m T1' Hm) as (x1 & E3 & T3 & V3). rewrite E3. cbn [bind].
    exists lo2, la2, x0, x1. split; [auto|]. split; [auto|]. split; [auto|]. split; [auto|]. split.
    - intros i j Hi Hj. rewrite V2, V3. split.
      + apply nslope_ext; auto. intros q Hq. cbn [amap get]. now rewrite (proj2 (V q j Hq Hj)).
      + apply nslope_ext; auto. intros q Hq. rewrite V1 by (rewrite S1; now apply inb2).
        now rewrite (proj1 (V i q Hi Hq)), (proj2 (V i q Hi Hq)).
    - replace (match data with VNd a => Ok a | VDa d | VSubDa d => Ok (dat d) | VOther => Err TypeError end)
        with (Ok (values_of data)) by (destruct data; auto; contradiction).
      reflexivity.
  Qed.

  Lemma grad_scalar_data data lon lat n m LO LA : data <> VOther -> 2 <= n -> 2 <= m -> grid_of lon lat n m LO LA ->
    vshape data = [] -> gradient data (Some lon) (Some lat) = Err IndexError.
  Proof.
    intros Hd Hn Hm G S. destruct (gradient_grid data lon lat n m LO LA Hd Hn Hm G) as (lo2 & la2 & x0 & x1 & _ & _ & _ & _ & _ & ->).
    unfold np_gradient2, ndim. replace (shp (values_of data)) with (@nil nat) by (destruct data; cbn in *; auto; contradiction). reflexivity.
  Qed.

  Lemma np_map2_scalar (f : T -> T -> T) (x : T) (b : arr T) n m : shp b = [n; m] -> 2 <= n -> 2 <= m ->
    exists r, np_map2 f (scalar x) b = Ok r /\ shp r = [n; m] /\ forall i j, get r [i; j] = f x (get b [i; j]).
  Proof.
    intros Hb Hn Hm. unfold np_map2, scalar. rewrite Hb. cbn [shp]. unfold bshape. cbn.
    eexists. split; [reflexivity|]. split; [reflexivity|]. intros i j. cbn [get]. unfold bidx. cbn.
    destruct (Nat.eqb_spec n 1), (Nat.eqb_spec m 1); try lia. reflexivity.
  Qed.
  Lemma wrap_same (g lo2 la2 : arr T) n m : shp g = [n; m] -> shp lo2 = [n; m] -> shp la2 = [n; m] ->
    exists r, wrap_xy g lo2 la2 = Ok r /\ dat r = g.
  Proof.
    intros A B C. unfold wrap_xy, ndim. rewrite A, B, C. unfold shape_eqb. destruct (list_eq_dec Nat.eq_dec [n; m] [n; m]); [|congruence].
    cbn. eexists; split; reflexivity.
  Qed.

  (** a single row of k values: both components come from its first values *)
  Lemma grad_row data lon lat n m k LO LA : data <> VOther -> 2 <= n -> 2 <= m -> grid_of lon lat n m LO LA ->
    vshape data = [k] -> 2 <= k ->
    exists r0 r1, gradient data (Some lon) (Some lat) = Ok [r0; r1] /\ vshape r0 = [n; m] /\ vshape r1 = [n; m] /\
      forall i j, i < n -> j < m ->
        cell r0 i j = ndiv (nslope k (fun q => get (values_of data) [q]) 0) (nslope n (fun q => arc_lat_wgs84 (LA q j)) i) /\
        cell r1 i j = ndiv (nslope k (fun q => get (values_of data) [q]) 1) (nslope m (fun q => arc_lon_wgs84 (LO i q) (LA i q)) j).
  Proof.
    intros Hd Hn Hm G S Hk.
    destruct (gradient_grid data lon lat n m LO LA Hd Hn Hm G) as (lo2 & la2 & x0 & x1 & S1 & S2 & T2 & T3 & V & ->).
    assert (Sv : shp (values_of data) = [k]) by (destruct data; cbn in *; auto; contradiction).
    set (a := values_of data) in *.
    assert (E : np_gradient2 a = Ok (scalar (nslope k (fun q => get a [q]) 0), scalar (nslope k (fun q => get a [q]) 1))).
    { unfold np_gradient2, ndim. rewrite Sv. cbn [List.length seq mapM]. unfold np_gradient_axis. rewrite Sv. cbn [nth].
      replace (Nat.ltb k 2) with false by (symmetry; apply Nat.ltb_ge; lia). cbn [bind]. reflexivity. }
    rewrite E. cbn [bind fst snd].
    destruct (np_map2_scalar ndiv (nslope k (fun q => get a [q]) 0) x0 n m T2 Hn Hm) as (r0 & E6 & T6 & V6). rewrite E6. cbn [bind].
    destruct (np_map2_scalar ndiv (nslope k (fun q => get a [q]) 1) x1 n m T3 Hn Hm) as (r1 & E7 & T7 & V7). rewrite E7. cbn [bind].
    assert (Q : forall i j, i < n -> j < m ->
        get r0 [i; j] = ndiv (nslope k (fun q => get a [q]) 0) (nslope n (fun q => arc_lat_wgs84 (LA q j)) i) /\
        get r1 [i; j] = ndiv (nslope k (fun q => get a [q]) 1) (nslope m (fun q => arc_lon_wgs84 (LO i q) (LA i q)) j)).
    { intros i j Hi Hj. rewrite V6, V7. destruct (V i j Hi Hj) as [-> ->]. split; reflexivity. }
    destruct data as [b|d|d|]; [|  | |contradiction].
    - exists (VNd r0), (VNd r1). cbn [vshape cell]. auto.
    - destruct (wrap_same r0 lo2 la2 n m T6 S1 S2) as (w0 & -> & W0). destruct (wrap_same r1 lo2 la2 n m T7 S1 S2) as (w1 & -> & W1).
      cbn [bind]. exists (VDa w0), (VDa w1). cbn [vshape cell]. rewrite W0, W1. auto.
    - exists (VNd r0), (VNd r1). cbn [vshape cell]. auto.
  Qed.

  (** data of rank two must have the shape of the grid *)
  Lemma grad_other_shape data lon lat n m p q LO LA : data <> VOther -> 2 <= n -> 2 <= m -> grid_of lon lat n m LO LA ->
    vshape data = [p; q] -> [p; q] <> [n; m] -> gradient data (Some lon) (Some lat) = Err ValueError.
  Proof.
    intros Hd Hn Hm G S D.
    destruct (gradient_grid data lon lat n m LO LA Hd Hn Hm G) as (lo2 & la2 & x0 & x1 & S1 & S2 & T2 & T3 & V & ->).
    assert (Sv : shp (values_of data) = [p; q]) by (destruct data; cbn in *; auto; contradiction).
    set (a := values_of data) in *. unfold np_gradient2, ndim. rewrite Sv. cbn [List.length seq mapM].
    unfold np_gradient_axis. rewrite Sv. cbn [nth].
    destruct (Nat.ltb_spec p 2); [reflexivity|]. destruct (Nat.ltb_spec q 2); [reflexivity|]. cbn [bind fst snd].
    unfold np_map2 at 1. cbn [shp]. rewrite T2. unfold bshape. cbn.
    replace (bdim q m) with (if Nat.eqb q m then Some q else None).
    2: { unfold bdim. destruct (Nat.eqb_spec q m), (Nat.eqb_spec q 1), (Nat.eqb_spec m 1); try lia; reflexivity. }
    replace (bdim p n) with (if Nat.eqb p n then Some p else None).
    2: { unfold bdim. destruct (Nat.eqb_spec p n), (Nat.eqb_spec p 1), (Nat.eqb_spec n 1); try lia; reflexivity. }
    destruct (Nat.eqb_spec q m), (Nat.eqb_spec p n); try reflexivity. exfalso. apply D. congruence.
  Qed.
End Gen.

Local Open Scope R_scope.
(** two rows that agree in their first three values have the same gradient, on finite data and coordinates *)
Lemma grad_row_fin data lon lat n m k LO LA D : (2 <= n)%nat -> (2 <= m)%nat -> (3 <= k)%nat ->
  finite_grid lon lat n m (fun _ j => LO j) (fun i _ => LA i) ->
  (forall i, (i < n)%nat -> -90 <= LA i <= 90) -> strictly_monotone n LA -> strictly_monotone m LO ->
  vshape data = [k] -> (forall q, (q < k)%nat -> get (values_of data) [q] = Fin (D q)) ->
  exists r0 r1, gradient data (Some lon) (Some lat) = Ok [r0; r1] /\ vshape r0 = [n; m] /\ vshape r1 = [n; m] /\
    forall i j, (i < n)%nat -> (j < m)%nat ->
      cell r0 i j = Fin ((D 1%nat - D 0%nat) / slope n (fun q => arc_series (LA q)) i) /\
      cell r1 i j = Fin ((D 2%nat - D 0%nat) / 2 / slope m (fun q => lon_arc (LO q) (LA i)) j).
Proof.
  intros Hn Hm Hk G Hla Sla Slo S HD.
  assert (Hd : data <> VOther) by (destruct data; cbn in S; discriminate).
  destruct (grad_row data lon lat n m k _ _ Hd Hn Hm G S ltac:(lia)) as (r0 & r1 & E & S0 & S1 & V).
  exists r0, r1. split; [exact E|]. split; [exact S0|]. split; [exact S1|]. intros i j Hi Hj. destruct (V i j Hi Hj) as [-> ->].
  destruct (c48_distances_nonzero lon lat n m LO LA Hn Hm G Hla Sla Slo i j Hi Hj) as [Z0 Z1].
  change (@ndiv fl NumFl) with fl_div.
  rewrite (nslope_ext k (fun q => get (values_of data) [q]) (fun q => Fin (D q)) 0) by (auto; lia).
  rewrite (nslope_ext k (fun q => get (values_of data) [q]) (fun q => Fin (D q)) 1) by (auto; lia).
  rewrite (nslope_ext n _ (fun q => Fin (arc_series (LA q)))) by (auto; intros; now rewrite arc_fin).
  rewrite (nslope_ext m _ (fun q => Fin (lon_arc (LO q) (LA i)))) by (auto; intros; now rewrite arc_lon_fin).
  rewrite !nslope_fin, !fdiv_fin by auto.
  replace (slope k D 1) with ((D 2%nat - D 0%nat) / 2); [split; reflexivity|].
  unfold slope. change (Nat.eqb 1 0) with false. cbv iota. destruct (Nat.eqb_spec 1 (k - 1)); [lia|]. reflexivity.
Qed.
