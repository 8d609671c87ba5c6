(** Facts about the gradient model. *)
From Coq Require Import Reals List Bool Arith ZArith Lra Lia String.
From Verif Require Import PyBase PyFacts Num NumFacts Arr ArrFacts CellFacts Hybrid Gradient PolyZ SpecGrad GradSeries.
Import ListNotations.
Local Open Scope nat_scope.

Section Gen.
  Context {T : Type} {N : Num T}.

  Lemma inb2 n m i j : i < n -> j < m -> inb [n; m] [i; j].
  Proof. intros. repeat constructor; auto. Qed.
  Lemma grad_axis0 (a : arr T) n m : shp a = [n; m] -> 2 <= n ->
    exists r, np_gradient_axis 0 a = Ok r /\ shp r = [n; m] /\
      forall i j, get r [i; j] = nslope n (fun k => get a [k; j]) i.
  Proof.
    intros Hs Hn. unfold np_gradient_axis. rewrite Hs. cbn [nth].
    replace (Nat.ltb n 2) with false by (symmetry; apply Nat.ltb_ge; lia).
    eexists. split; [reflexivity|]. split; [reflexivity|]. intros i j. reflexivity.
  Qed.
  Lemma grad_axis1 (a : arr T) n m : shp a = [n; m] -> 2 <= m ->
    exists r, np_gradient_axis 1 a = Ok r /\ shp r = [n; m] /\
      forall i j, get r [i; j] = nslope m (fun k => get a [i; k]) j.
  Proof.
    intros Hs Hn. unfold np_gradient_axis. rewrite Hs. cbn [nth].
    replace (Nat.ltb m 2) with false by (symmetry; apply Nat.ltb_ge; lia).
    eexists. split; [reflexivity|]. split; [reflexivity|]. intros i j. reflexivity.
  Qed.
  Lemma nslope_ext n f g k : k < n -> (forall i, i < n -> f i = g i) -> 2 <= n -> nslope n f k = nslope n g k.
  Proof.
    intros Hk H Hn. unfold nslope. destruct (Nat.eqb_spec k 0); [now rewrite !H by lia|].
    destruct (Nat.eqb_spec k (n - 1)); rewrite !H by lia; reflexivity.
  Qed.

  Definition values_of (v : val T) : arr T :=
    match v with VNd a => a | VDa d | VSubDa d => dat d | VOther => scalar nnan end.
  Lemma gradient_ok data lon lat n m LO LA : data <> VOther -> shp (values_of data) = [n; m] -> 2 <= n -> 2 <= m ->
    grid_of lon lat n m LO LA ->
    exists r0 r1, gradient data (Some lon) (Some lat) = Ok [r0; r1] /\
      vshape r0 = [n; m] /\ vshape r1 = [n; m] /\
      (forall i j, i < n -> j < m ->
        cell r0 i j = ndiv (nslope n (fun k => get (values_of data) [k; j]) i) (nslope n (fun k => arc_lat_wgs84 (LA k j)) i)) /\
      (forall i j, i < n -> j < m ->
        cell r1 i j = ndiv (nslope m (fun k => get (values_of data) [i; k]) j) (nslope m (fun k => arc_lon_wgs84 (LO i k) (LA i k)) j)) /\
      match data with
      | VDa _ => exists d0 d1, r0 = VDa d0 /\ r1 = VDa d1 /\ dims d0 = ["x"; "y"]%string /\ dims d1 = ["x"; "y"]%string
      | _ => is_nd r0 = true /\ is_nd r1 = true
      end.
  Proof.
    intros Hd Hs Hn Hm G.
    assert (exists lo2 la2, (if Nat.eqb (ndim lon) 1 && Nat.eqb (ndim lat) 1 then Ok (meshgrid lon lat)
             else if Nat.eqb (ndim lon) 2 && Nat.eqb (ndim lat) 2 then Ok (lon, lat)
             else Err ValueError) = Ok (lo2, la2) /\ shp lo2 = [n; m] /\ shp la2 = [n; m] /\
             (forall i j, i < n -> j < m -> get lo2 [i; j] = LO i j /\ get la2 [i; j] = LA i j) /\
             (Nat.eqb (ndim lon) 1 || Nat.eqb (ndim lon) 2) = true) as (lo2 & la2 & E & S1 & S2 & V & R).
    { destruct G as [G1 G2 G3|G1 G2 G3]; unfold ndim; rewrite G1, G2; cbn [List.length Nat.eqb andb].
      - do 2 eexists. split; [reflexivity|]. cbn [shp]. rewrite G1, G2. split; [reflexivity|]. split; [reflexivity|].
        split; [|reflexivity]. intros i j Hi Hj. destruct (G3 i j Hi Hj) as [-> ->]. split; reflexivity.
      - do 2 eexists. split; [reflexivity|]. split; [assumption|]. split; [assumption|].
        split; [|reflexivity]. intros i j Hi Hj. destruct (G3 i j Hi Hj) as [-> ->]. split; reflexivity. }
    unfold gradient. cbn [bind fst snd oget]. rewrite R. cbn [negb]. rewrite E. cbn [bind].
    destruct (np_map2_same arc_lon_wgs84 lo2 la2) as (a1 & E1 & T1 & V1); [now rewrite S1, S2|]. rewrite E1. cbn [bind].
    destruct (grad_axis0 (amap arc_lat_wgs84 la2) n m S2 Hn) as (x0 & E2 & T2 & V2). rewrite E2. cbn [bind].
    assert (T1' : shp a1 = [n; m]) by (rewrite T1; exact S1).
    destruct (grad_axis1 a1 n m T1' Hm) as (x1 & E3 & T3 & V3). rewrite E3. cbn [bind].
    replace (match data with VNd a => Ok a | VDa d | VSubDa d => Ok (dat d) | VOther => Err TypeError end)
      with (Ok (values_of data)) by (destruct data; auto; contradiction).
    cbn [bind]. set (a := values_of data) in *.
    destruct (grad_axis0 a n m Hs Hn) as (g0 & E4 & T4 & V4). destruct (grad_axis1 a n m Hs Hm) as (g1 & E5 & T5 & V5).
    unfold np_gradient2, ndim. rewrite Hs. cbn [List.length seq mapM bind]. rewrite E4, E5. cbn [bind fst snd].
    destruct (np_map2_same ndiv g0 x0) as (r0 & E6 & T6 & V6); [now rewrite T4, T2|]. rewrite E6. cbn [bind].
    destruct (np_map2_same ndiv g1 x1) as (r1 & E7 & T7 & V7); [now rewrite T5, T3|]. rewrite E7. cbn [bind].
    assert (C0 : forall i j, i < n -> j < m -> get r0 [i; j] = ndiv (nslope n (fun k => get a [k; j]) i) (nslope n (fun k => arc_lat_wgs84 (LA k j)) i)).
    { intros i j Hi Hj. rewrite V6 by (rewrite T4; now apply inb2). rewrite V4, V2. f_equal.
      apply nslope_ext; auto. intros k Hk. cbn [amap get]. now rewrite (proj2 (V k j Hk Hj)). }
    assert (C1 : forall i j, i < n -> j < m -> get r1 [i; j] = ndiv (nslope m (fun k => get a [i; k]) j) (nslope m (fun k => arc_lon_wgs84 (LO i k) (LA i k)) j)).
    { intros i j Hi Hj. rewrite V7 by (rewrite T5; now apply inb2). rewrite V5, V3. f_equal.
      apply nslope_ext; auto. intros k Hk. rewrite V1 by (rewrite S1; now apply inb2).
      now rewrite (proj1 (V i k Hi Hk)), (proj2 (V i k Hi Hk)). }
    assert (Tr0 : shp r0 = [n; m]) by now rewrite T6. assert (Tr1 : shp r1 = [n; m]) by now rewrite T7.
    assert (Hsh : shape_eqb [n; m] [n; m] = true) by (unfold shape_eqb; destruct (list_eq_dec _ _ _); auto).
    destruct data as [b|d|d|]; [| | |contradiction].
    - exists (VNd r0), (VNd r1). repeat (split; auto).
    - unfold wrap_xy, ndim. rewrite Tr0, Tr1, S1, S2, Hsh. cbn [List.length Nat.eqb negb andb bind].
      do 2 eexists. split; [reflexivity|]. cbn [vshape dat cell]. split; [assumption|]. split; [assumption|].
      split; [assumption|]. split; [assumption|]. do 2 eexists. repeat (split; [reflexivity|]). reflexivity.
    - exists (VNd r0), (VNd r1). repeat (split; auto).
  Qed.
End Gen.
